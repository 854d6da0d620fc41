(** Model of the Green's functions in the inversion, /repo/qopen/core.py:445-449
    and 838-848, with the functions for the option G_plugin, /repo/qopen/rt.py:168-213. *)
From Coq Require Import String List Bool Reals ZArith Arith.
From Verif Require Import Base Pyf StatModel SmoothModel RtModel.
Import ListNotations.
Open Scope string_scope.
Open Scope list_scope.
Open Scope R_scope.

(** G_rt3d, G_rt2d, G_rt1d, G_diff3d and G_diffapprox3d for an array of times, rt.py:168-213:
    G of the given type with direct wave *)
Definition G_plugin (ty : string) (r : R) (ts : list R) (c g0 : R) : res (list R) := G_times ty r ts c g0 true.

(** util.py:150-166, for a function f of arrays.  As in SmoothModel.v a vague time step
    yields ValueError, less than two times IndexError. *)
Definition smooth_func_array (f : list R -> res (list R)) (t : list R) (window_len : option R) (window : string)
    : res (list R) :=
  match window_len with
  | None => f t
  | Some wl =>
      match t with
      | t0 :: t1 :: _ =>
          let dt := t1 - t0 in
          let diffs := map (fun p => Rabs (snd p - fst p - dt)) (combine t (tl t)) in
          if Rlt_dec (1 / 100000) (rsum diffs) then Err ValueError
          else if Req_EM_T dt 0 then Err ValueError
          else
            let samples := py_round (wl / dt) in
            let N1 := ((samples - 1) / 2)%Z in
            let N2 := (samples / 2)%Z in
            let arange m := map (fun i => INR i * dt) (seq 0 (Z.to_nat m)) in
            let t_ := map (fun a => t0 - IZR N1 * dt + a) (arange N1) ++ t
                      ++ map (fun a => last t 0 + dt + a) (arange N2) in
            do f_ <- f t_;
            smooth f_ (Some samples) window None
      | _ => Err IndexError
      end
  end.

(** core.py:445-449 *)
Definition Gsmooth (G_func : R -> list R -> R -> R -> res (list R)) (r : R) (t : list R) (v0 g0 : R)
    (smooth : option R) (smooth_window : string) : res (list R) :=
  smooth_func_array (fun t_ => G_func r t_ v0 g0) t smooth smooth_window.

(** [np.linspace(t1, t2, num)], core.py:846 *)
Definition linspace (t1 t2 : R) (num : nat) : list R :=
  map (fun k => t1 + INR k * ((t2 - t1) / INR (num - 1))) (seq 0 num).

(** core.py:845-847 *)
Definition bulk_green (G_func : R -> list R -> R -> R -> res (list R)) (r t1 t2 : R) (num : nat) (v0 g0 : R) : res R :=
  do g <- G_func r (linspace t1 t2 num) v0 g0;
  Ok (rsum g / INR (List.length g)).

(** core.py:841-842 as used by LsqfbModel.v.  Simplification: nan for a g0 that is not a number. *)
Definition coda_greens (ty : string) (smooth : option R) (smooth_window : string) (v0 r : R) (t : list R) (g0 : pyf)
    : res (list pyf) :=
  match g0 with
  | FNum g => do gs <- Gsmooth (G_plugin ty) r t v0 g smooth smooth_window; Ok (map FNum gs)
  | _ => Ok (map (fun _ => FNan) t)
  end.

(** core.py:845-848 as used by LsqfbModel.v, in the same way *)
Definition bulk_greens (ty : string) (num : nat) (v0 r : R) (t12 : R * R) (g0 : pyf) : res pyf :=
  match g0 with
  | FNum g => do x <- bulk_green (G_plugin ty) r (fst t12) (snd t12) num v0 g; Ok (FNum x)
  | _ => Ok FNan
  end.
