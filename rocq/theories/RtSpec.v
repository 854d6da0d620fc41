(** Specification vocabulary for the Green's functions (independent of the
    helpers of RtModel). *)
From Coq Require Import String List Reals.
From Verif Require Import Base.
Import ListNotations.
Open Scope R_scope.

(** The nine documented types, /repo/qopen/rt.py:298-299 and the
    documentation in rt.py:8-17. *)
Definition documented_types : list string :=
  ["rt3d"; "rt2d"; "rt1d"; "diff3d"; "diff2d"; "diff1d";
   "diffapprox3d"; "diffapprox2d"; "diffapprox1d"]%string.

(** spatial dimension of a type *)
Definition dimension (ty : string) : nat :=
  if (String.eqb ty "rt1d" || String.eqb ty "diff1d" || String.eqb ty "diffapprox1d")%bool
  then 1
  else if (String.eqb ty "rt2d" || String.eqb ty "diff2d" || String.eqb ty "diffapprox2d")%bool
  then 2 else 3.

(** a strictly increasing vector *)
Definition increasing (l : list R) : Prop :=
  forall i j, (i < j < length l)%nat -> nth i l 0 < nth j l 0.

(** Sample [k] of the vector [l] is the first one not before [x], and there
    is an earlier sample: the sample which carries an impulse at [x]. *)
Definition impulse_sample (l : list R) (x : R) (k : nat) : Prop :=
  (0 < k < length l)%nat /\ nth (k - 1) l 0 < x <= nth k l 0.

(** Sample [k] is the first one beyond [x], and there is an earlier one. *)
Definition first_beyond (l : list R) (x : R) (k : nat) : Prop :=
  (0 < k < length l)%nat /\ nth (k - 1) l 0 <= x < nth k l 0.

(** The radial Laplace operator in [dim] dimensions, from first and second
    derivative. *)
Definition radial_laplacian (dim : nat) (r u1 u2 : R) : R :=
  u2 + (INR dim - 1) / r * u1.

(** Value of a successful evaluation; used below integrals, where the
    evaluation is known to succeed. *)
Definition ok_value (x : res R) : R :=
  match x with Ok v => v | Err _ => 0 end.

(** Energy density of the unscattered wave (factor of the delta function on
    the front), Paasschens (1997): exp(-c t g0) spread over the sphere of radius
    c t (exp(-c t g0 / 2) in one dimension, where half of the scattered energy
    goes forward), none for diffusion. *)
Definition direct_energy (ty : string) (t c g0 : R) : R :=
  if String.eqb ty "rt1d" then exp (- (c * t * g0) / 2) / 2
  else if String.eqb ty "rt2d" then exp (- (c * t * g0)) / (2 * PI * (c * t))
  else if String.eqb ty "rt3d" then exp (- (c * t * g0)) / (4 * PI * (c * t) ^ 2)
  else 0.
