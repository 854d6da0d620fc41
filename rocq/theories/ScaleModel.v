(** Model of the option scale of plot_t and plot_r, /repo/qopen/rt.py:229-235 and
    255-261, on top of the curves of RtModel.v.  The option is not reachable from the
    command line, only by a call of these functions. *)
From Coq Require Import String List Bool Reals.
From Verif Require Import Base Pyf PyfOps RtModel.
Import ListNotations.
Open Scope R_scope.

(** [np.max(G_)], rt.py:230, 256; a ValueError for an empty array *)
Definition np_max (l : list R) : res R :=
  match l with
  | [] => Err ValueError
  | x :: l => Ok (fold_left Rmax l x)
  end.

(** rt.py:229-230, 255-256: the values drawn *)
Definition scale_points (scale : bool) (pts : list (R * R)) : res (list (R * pyf)) :=
  if scale
  then do m <- np_max (map snd pts); Ok (map (fun p => (fst p, fdiv (FNum (snd p)) (FNum m))) pts)
  else Ok (map (fun p => (fst p, FNum (snd p))) pts).

(** plot_t, rt.py:213-235 *)
Definition plot_t_shown (c g0 : R) (r t : option R) (N : nat) (include_direct : bool) (la : option R) (ty : string)
    (scale : bool) : res (list (R * pyf)) :=
  do pts <- plot_t c g0 r t N include_direct la ty; scale_points scale pts.

(** plot_r, rt.py:239-261 *)
Definition plot_r_shown (c g0 : R) (t r : option R) (N : nat) (include_direct : bool) (la : option R) (ty : string)
    (scale : bool) : res (list (R * pyf)) :=
  do pts <- plot_r c g0 t r N include_direct la ty; scale_points scale pts.
