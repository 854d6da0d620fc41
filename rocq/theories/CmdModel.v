(** Model of the command "qopen rt", /repo/qopen/rt.py:266-361.  The arguments
    are those after parsing (create_parser, rt.py:302-320); drawing is reduced to
    the points drawn. *)
From Coq Require Import String List Bool Reals Lra Arith.
From Verif Require Import Base RtModel.
Import ListNotations.
Open Scope R_scope.

(** rt.py:266-291: the points ((r, t), G) of the mesh.  The direct wave is
    ignored with a warning.  Simplifications: no logarithm of the values;
    nan values, set to 0 in rt.py:285, do not occur over the real numbers. *)
Definition plot_rt (c g0 : R) (t r : option R) (N : nat) (la : option R) (ty : string)
  : res (list ((R * R) * R)) :=
  let r0 := match t, r with None, None => Some (10 / g0) | _, _ => r end in
  let t1 := match t, r0 with
            | Some t, _ => t
            | None, Some r => 10 * r / c
            | None, None => 0 (* not reached *)
            end in
  let r1 := match r0 with Some r => r | None => 1.1 * c * t1 end in
  let ts := linspace0 t1 N in
  let rs := linspace0 r1 N in
  let mesh := flat_map (fun t => map (fun r => (r, t)) rs) ts in
  do G_ <- G_arrays ty (map fst mesh) (map snd mesh) c g0 false;
  let G_ := match la with
            | None => G_
            | Some la => map (fun p => snd p * exp (- c * snd (fst p) / la)) (combine mesh G_)
            end in
  Ok (combine mesh G_).

(** the commands, rt.py:305 *)
Inductive command := Calc | CalcDirect | PlotT | PlotR | PlotRT.

(** what a command prints or draws *)
Inductive output :=
| Printed (x : R)
| Curve (pts : list (R * R))
| Mesh (pts : list ((R * R) * R)).

(** [1/l] of two Python numbers, rt.py:336, 343, 354-358 *)
Definition inverse (l : R) : res R :=
  if Req_EM_T l 0 then Err ZeroDivisionError else Ok (1 / l).

(** rt.py:344-345: [t] may be missing; a division by 0 raises *)
Definition absorb (c : R) (t : option R) (la : option R) (G_ : R) : res R :=
  match la with
  | None => Ok G_
  | Some la =>
      match t with
      | None => Err TypeError
      | Some t => if Req_EM_T la 0 then Err ZeroDivisionError else Ok (G_ * exp (- c * t / la))
      end
  end.

(** rt.py:334-346 for one mean free path: the number printed.  A missing r or t
    is a TypeError in the first arithmetic operation.  Simplification: c <> 0. *)
Definition calc (direct : bool) (types : list string) (r t : option R) (c : R) (la : option R) (l : R)
  : res R :=
  match types with
  | [] => Err IndexError
  | ty :: _ =>
    do G_ <- (if negb direct then
                do g0 <- inverse l;
                match r, t with
                | Some r, Some t => G_scalar ty r t c g0
                | _, _ => Err TypeError
                end
              else
                do Gdirect <- (if String.eqb ty "rt1d" then Ok rt1d_direct
                               else if String.eqb ty "rt2d" then Ok rt2d_direct
                               else if String.eqb ty "rt3d" then Ok rt3d_direct
                               else Err ValueError);
                do g0 <- inverse l;
                match t with
                | Some t => Ok (Gdirect t c g0)
                | None => Err TypeError
                end);
    absorb c t la G_
  end.

(** the number of samples N=1000, rt.py:213, 240, 266 *)
Definition samples : nat := 1000.

(** rt.py:323-361: everything printed or drawn in this order.  Simplification:
    what was printed before an exception is left out. *)
Definition main (com : command) (types : list string) (r t : option R) (c : R) (ls : list R)
  (la : option R) (no_direct : bool) : res (list output) :=
  let single := match com with Calc | PlotRT => true | _ => false end in
  if (single && negb (Nat.eqb (length types) 1))%bool then Err ValueError
  else
    match com with
    | Calc => do xs <- mapM (calc false types r t c la) ls; Ok (map Printed xs)
    | CalcDirect => do xs <- mapM (calc true types r t c la) ls; Ok (map Printed xs)
    | _ =>
        do outs <- mapM (fun l => mapM (fun ty =>
              do g0 <- inverse l;
              match com with
              | PlotT => do pts <- plot_t c g0 r t samples (negb no_direct) la ty; Ok (Curve pts)
              | PlotR => do pts <- plot_r c g0 t r samples (negb no_direct) la ty; Ok (Curve pts)
              | _ => do pts <- plot_rt c g0 t r samples la ty; Ok (Mesh pts)
              end) types) ls;
        Ok (concat outs)
    end.
