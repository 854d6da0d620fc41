(** Specification of the Green's functions in the inversion. *)
From Coq Require Import String List Bool Reals ZArith.
From Verif Require Import Base Pyf PyfOps RtModel RtSpec SmoothSpec FbModel LsqfbModel.
Import ListNotations.
Open Scope string_scope.
Open Scope list_scope.
Open Scope R_scope.

(** g are the values of the Green's function of type ty at distance r behind the wave front *)
Definition green_values (ty : string) (r c g0 : R) (g : R -> R) : Prop :=
  forall t, r / c < t -> G_scalar ty r t c g0 = Ok (g t).

(** w are the normalised weights of the named window of n samples *)
Definition named_window (window : string) (n : Z) (w : nat -> R) : Prop :=
  is_window (Z.to_nat n) w /\
  exists c, forall k, (k < Z.to_nat n)%nat -> w k = c * window_shape window (INR k / (IZR n - 1)).

(** mean of g around t with weights w and time step dt *)
Definition mean_around (n : Z) (w : nat -> R) (g : R -> R) (dt t : R) : R :=
  total (Z.to_nat n) (fun k => w k * g (t + (INR k - IZR ((n - 1) / 2)) * dt)).

(** the numbers of a list, all positive *)
Definition positive_numbers (l : list pyf) : Prop := forall x, In x l -> exists r, x = FNum r /\ 0 < r.

(** the coda window of each pair begins behind the wave front *)
Definition behind_front (st : wstate) (v0 : R) : Prop :=
  forall i p t, nth_error (pairs st) i = Some p -> nth_error (w_tcoda st) i = Some t ->
    exists r, dget pair_eqb (w_distances st) p = Some r /\ 0 <= r /\ increasing t /\ r / v0 < nth 0 t 0.

(** The parameters are linear in the right hand side: the rows of a matrix times b (NaNs are
    dropped before). *)
Definition linear_solver (wls : list pyf -> list (list pyf) -> option (list R) -> res (list pyf * pyf)) : Prop :=
  forall b a ws c mse, wls b a ws = Ok (c, mse) -> ~ In FNan b ->
    exists P, Forall (fun row => List.length row = List.length b) P /\
      c = map (fun row => fsum (map (fun x => fmul (FNum (fst x)) (snd x)) (combine row b))) P.
