(** Energy of the solutions of the diffusion equation in one, two and three dimensions. *)
From Coq Require Import String Reals.
From Coquelicot Require Import Coquelicot.
Open Scope R_scope.

(** the dimensions, and the names of the solutions of the diffusion equation *)
Definition dimension (dim : nat) : Prop := dim = 1%nat \/ dim = 2%nat \/ dim = 3%nat.
Definition diff_type (dim : nat) : string :=
  match dim with 1%nat => "diff1d" | 2%nat => "diff2d" | _ => "diff3d" end.

(** both points, circumference and surface at the distance r from the source *)
Definition surface (dim : nat) (r : R) : R :=
  match dim with 1%nat => 2 | 2%nat => 2 * PI * r | _ => 4 * PI * r ^ 2 end.

(** probability that the length of a vector of [dim] independent centred normal variables with the
    variance 1/2 is smaller than x *)
Definition inside (dim : nat) (x : R) : R :=
  let erf := 2 / sqrt PI * RInt (fun u => exp (- u ^ 2)) 0 x in
  match dim with
  | 1%nat => erf
  | 2%nat => 1 - exp (- x ^ 2)
  | _ => erf - 2 / sqrt PI * x * exp (- x ^ 2)
  end.
