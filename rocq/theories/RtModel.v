(** Model of /repo/qopen/rt.py over the real numbers.

    General simplifications: floating point rounding is not modelled; the
    numpy power [x ** y] is [Rpower x y], which agrees with numpy for x > 0
    only (numpy yields nan/inf for x <= 0 with fractional exponents), so
    statements about the code are restricted to c * t <> r. *)
From Coq Require Import String List Bool Reals Lra Arith.
From Coquelicot Require Import Coquelicot.
From Verif Require Import Base.
Import ListNotations.
Open Scope R_scope.

(** rt.py:42-44 *)
Definition rt1d_direct (t c g0 : R) : R :=
  let l := 1 / g0 in 1 / 2 * exp (- c * t / 2 / l).

(** scipy.special.iv(0, x), used in rt.py:53; the power series
    sum_k (x/2)^(2k) / (k!)^2 which defines the modified Bessel function. *)
Definition iv0 (x : R) : R :=
  PSeries (fun k => / (INR (fact k) * INR (fact k))) ((x / 2) ^ 2).

(** scipy.special.iv(1, x), used in rt.py:53; the power series
    sum_k (x/2)^(2k+1) / (k! (k+1)!). *)
Definition iv1 (x : R) : R :=
  x / 2 * PSeries (fun k => / (INR (fact k) * INR (fact (S k)))) ((x / 2) ^ 2).

(** rt.py:47-54 *)
Definition rt1d_coda (r t c g0 : R) : R :=
  let l := 1 / g0 in
  let arg0 := sqrt (c ^ 2 * t ^ 2 - r ^ 2) in
  let arg1 := arg0 / 2 / l in
  let t1 := 1 / 4 / l * exp (- c * t / 2 / l) in
  let t2 := iv0 arg1 + c * t * iv1 arg1 / arg0 in
  t1 * t2.

(** rt.py:57-59 *)
Definition rt2d_direct (t c g0 : R) : R :=
  let l := 1 / g0 in exp (- c * t / l) / (2 * PI * c * t).

(** rt.py:62-67 *)
Definition rt2d_coda (r t c g0 : R) : R :=
  let l := 1 / g0 in
  let t1 := 1 / (2 * PI * l * c * t) in
  let t2 := Rpower (1 - r ^ 2 / c ^ 2 / t ^ 2) (-1 / 2) in
  let t3 := exp ((sqrt (c ^ 2 * t ^ 2 - r ^ 2) - c * t) / l) in
  t1 * t2 * t3.

(** rt.py:70-73 (the argument [var] is unused in the source) *)
Definition rt3d_direct (t c g0 : R) : R :=
  let t1 := exp (- c * t * g0) in
  let t2 := 4 * PI * c ^ 2 * t ^ 2 in
  t1 / t2.

(** rt.py:76-77 *)
Definition rtF (x : R) : R := sqrt (1 + 2.026 / x).

(** rt.py:80-85 *)
Definition rt3d_coda_reduced (r t : R) : R :=
  let a := 1 - r ^ 2 / t ^ 2 in
  let t1 := Rpower a 0.125 / Rpower (4 * PI * t / 3) 1.5 in
  let t2 := exp (t * (Rpower a 0.75 - 1)) * rtF (t * Rpower a 0.75) in
  t1 * t2.

(** rt.py:88-90 *)
Definition rt3d_coda (r t c g0 : R) : R :=
  rt3d_coda_reduced (r * g0) (t * c * g0) * g0 ^ 3.

(** rt.py:93-97 *)
Definition diff (dim : nat) (r t c g0 : R) : R :=
  let D := c / (INR dim * g0) in
  let t1 := Rpower (4 * PI * D * t) (- INR dim / 2) in
  let t2 := exp (- r ^ 2 / (4 * D * t)) in
  t1 * t2.

(** rt.py:100-103 *)
Definition diffapprox (dim : nat) (r t c g0 : R) : R :=
  let D := c / (INR dim * g0) in
  let t1 := Rpower (4 * PI * D * t) (- INR dim / 2) in
  t1.

(** The pair (Gcoda, Gdirect) chosen by rt.py:108-126.  [None] stands for
    the unknown type: line 126 evaluates the name NotImplementedError without
    raising it, so both names stay unbound.  [int(type[-2])] (lines 118, 122)
    is evaluated for the six type names listed in the source. *)
Definition select (ty : string)
  : option ((R -> R -> R -> R -> R) * (R -> R -> R -> R)) :=
  if String.eqb ty "rt3d" then Some (rt3d_coda, rt3d_direct)
  else if String.eqb ty "rt2d" then Some (rt2d_coda, rt2d_direct)
  else if String.eqb ty "rt1d" then Some (rt1d_coda, rt1d_direct)
  else if String.eqb ty "diff1d" then Some (diff 1, fun _ _ _ => 0)
  else if String.eqb ty "diff2d" then Some (diff 2, fun _ _ _ => 0)
  else if String.eqb ty "diff3d" then Some (diff 3, fun _ _ _ => 0)
  else if String.eqb ty "diffapprox1d" then Some (diffapprox 1, fun _ _ _ => 0)
  else if String.eqb ty "diffapprox2d" then Some (diffapprox 2, fun _ _ _ => 0)
  else if String.eqb ty "diffapprox3d" then Some (diffapprox 3, fun _ _ _ => 0)
  else None.

(** rt.py:129-133 together with 106-126: [G] for scalar r and t.
    [include_direct] is not used on this path. *)
Definition G_scalar (ty : string) (r t c g0 : R) : res R :=
  if Rlt_dec (t - r / c) 0 then Ok 0
  else match select ty with
       | None => Err UnboundLocalError
       | Some (Gcoda, _) => Ok (Gcoda r t c g0)
       end.

(** numpy.count_nonzero of a condition, rt.py:148, 157 *)
Definition count_nonzero (p : R -> bool) (l : list R) : nat :=
  length (filter p l).

(** the test [x < 0] as a boolean, rt.py:143, 148, 157 *)
Definition ltb0 (x : R) : bool := if Rlt_dec x 0 then true else false.

(** [a[i] = v] for 0 <= i < len(a), rt.py:153, 162 *)
Fixpoint set_nth (l : list R) (i : nat) (v : R) : list R :=
  match l, i with
  | [], _ => []
  | _ :: l', O => v :: l'
  | x :: l', S i' => x :: set_nth l' i' v
  end.

(** rt.py:145-153 together with 106-126: [G] for an array of times.
    The assignment [G_[i+1:] = Gcoda(r, t[i+1:], c, g0)] to the zero array is
    written as zeros followed by the computed values. *)
Definition G_times (ty : string) (r : R) (ts : list R) (c g0 : R)
  (include_direct : bool) : res (list R) :=
  match ts with
  | t0 :: t1 :: _ =>
      let eps := t1 - t0 in
      let i := count_nonzero (fun t => ltb0 (c * t - r)) ts in
      match select ty with
      | None => Err UnboundLocalError
      | Some (Gcoda, Gdirect) =>
          let G_ := map (fun _ => 0) (firstn (i + 1) ts) ++
                    map (fun t => Gcoda r t c g0) (skipn (i + 1) ts) in
          if include_direct && (0 <? i)%nat && (i <? length ts)%nat
          then Ok (set_nth G_ i (Gdirect (r / c) c g0 / eps / c))
          else Ok G_
      end
  | _ => Err IndexError
  end.

(** rt.py:154-162 together with 106-126: [G] for an array of distances.
    The negative index [i = -count] is the position [len - count]; for
    count = 0 the source sets [i = len(r)].  [i != len(G_)] (line 161) is then
    [count <> 0]. *)
Definition G_dists (ty : string) (rs : list R) (t c g0 : R)
  (include_direct : bool) : res (list R) :=
  match rs with
  | r0 :: r1 :: _ =>
      let eps := r1 - r0 in
      let cnt := count_nonzero (fun r => ltb0 (c * t - r)) rs in
      let i := (length rs - cnt)%nat in
      match select ty with
      | None => Err UnboundLocalError
      | Some (Gcoda, Gdirect) =>
          let G_ := map (fun r => Gcoda r t c g0) (firstn i rs) ++
                    map (fun _ => 0) (skipn i rs) in
          if include_direct && negb (Nat.eqb cnt 0)
          then Ok (set_nth G_ i (Gdirect t c g0 / eps))
          else Ok G_
      end
  | _ => Err IndexError
  end.

(** rt.py:134-144 together with 106-126: [G] for arrays of distances and
    times (one-dimensional arrays only). *)
Definition G_arrays (ty : string) (rs ts : list R) (c g0 : R)
  (include_direct : bool) : res (list R) :=
  if negb (Nat.eqb (length ts) (length rs)) then Err ValueError
  else if include_direct then Err NotImplementedError
  else match select ty with
       | None => Err UnboundLocalError
       | Some (Gcoda, _) =>
           Ok (map (fun rt => if ltb0 (c * snd rt - fst rt) then 0
                              else Gcoda (fst rt) (snd rt) c g0)
                   (combine rs ts))
       end.

(** numpy.logspace(a, b, N), rt.py:222 *)
Definition logspace (a b : R) (N : nat) : list R :=
  map (fun k => Rpower 10 (a + INR k * ((b - a) / INR (N - 1)))) (seq 0 N).

(** numpy.log10, rt.py:222 *)
Definition log10 (x : R) : R := ln x / ln 10.

(** rt.py:222: the time vector of [plot_t] *)
Definition plot_t_times (c r t : R) (N : nat) : list R :=
  map (fun s => r / c + s)
      ([- 0.01 * r / c; 0] ++ logspace (-3) (log10 (t - r / c)) N).

(** rt.py:217-230: the points (ts, G_) drawn by [plot_t] (without the
    optional normalisation [scale], not reachable from the command line).
    The drawing itself is not modelled. *)
Definition plot_t (c g0 : R) (r t : option R) (N : nat)
  (include_direct : bool) (la : option R) (ty : string)
  : res (list (R * R)) :=
  let r := match r with Some r => r | None => 10 / g0 end in
  let t := match t with Some t => t | None => 10 * r / c end in
  let ts := plot_t_times c r t N in
  do G_ <- G_times ty r ts c g0 include_direct;
  let G_ := match la with
            | None => G_
            | Some la => map (fun g => g * exp (- c * t / la)) G_
            end in
  Ok (combine ts G_).

(** numpy.linspace(0, r, N), rt.py:248 *)
Definition linspace0 (r : R) (N : nat) : list R :=
  map (fun k => INR k * (r / INR (N - 1))) (seq 0 N).

(** rt.py:242-256: the points (rs, G_) drawn by [plot_r] (as [plot_t]).
    With r given and t missing the expression [c * t] fails: TypeError. *)
Definition plot_r (c g0 : R) (t r : option R) (N : nat)
  (include_direct : bool) (la : option R) (ty : string)
  : res (list (R * R)) :=
  do rt <- match r, t with
           | None, None => Ok (10 / g0, 10 / g0 / 1.1 / c)
           | None, Some t => Ok (1.1 * c * t, t)
           | Some r, Some t => Ok (r, t)
           | Some r, None => Err TypeError
           end;
  let '(r, t) := rt in
  let rs := linspace0 r N in
  do G_ <- G_dists ty rs t c g0 include_direct;
  let G_ := match la with
            | None => G_
            | Some la => map (fun g => g * exp (- c * t / la)) G_
            end in
  Ok (combine rs G_).
