(** Specification vocabulary for smoothing. *)
From Coq Require Import String List Reals.
Import ListNotations.
Open Scope string_scope.
Open Scope list_scope.
Open Scope R_scope.

(** g 0 + ... + g (n-1) *)
Fixpoint total (n : nat) (g : nat -> R) : R :=
  match n with O => 0 | S m => total m g + g m end.

(** an averaging window of n points: symmetric, not negative, sum 1 *)
Definition is_window (n : nat) (w : nat -> R) : Prop :=
  (forall k, (k < n)%nat -> 0 <= w k) /\ total n w = 1 /\
  (forall k, (k < n)%nat -> w k = w (n - 1 - k)%nat).

(** weighted mean of the n samples of x starting at sample j *)
Definition window_mean (n : nat) (w : nat -> R) (x : list R) (j : nat) : R :=
  total n (fun k => w k * nth (j + k) x 0).

(** samples evenly spaced by dt *)
Definition evenly_spaced (t : list R) (t0 dt : R) : Prop :=
  forall i, (i < length t)%nat -> nth i t 0 = t0 + INR i * dt.

(** k is the integer nearest to x; of two equally near ones the even one *)
Definition nearest_int (x : R) (k : Z) : Prop :=
  Rabs (x - IZR k) < 1 / 2 \/ (Rabs (x - IZR k) = 1 / 2 /\ Z.even k = true).

(** The named windows as in the literature (without normalisation); x in [0, 1]
    runs over the window: Hann, Hamming, Bartlett (triangle) and Blackman. *)
Definition window_shape (window : string) (x : R) : R :=
  if String.eqb window "hanning" then sin (PI * x) ^ 2
  else if String.eqb window "hamming" then 8 / 100 + 92 / 100 * sin (PI * x) ^ 2
  else if String.eqb window "bartlett" then 1 - Rabs (2 * x - 1)
  else if String.eqb window "blackman" then 42 / 100 - 1 / 2 * cos (2 * PI * x) + 8 / 100 * cos (4 * PI * x)
  else 1.
