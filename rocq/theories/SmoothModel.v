(** Model of smooth and smooth_func, /repo/qopen/util.py:150-216, over the
    reals (rounding errors of the convolution are not modelled).
    Signals are one dimensional (the check of ndim at util.py:192 is not
    modelled). *)
From Coq Require Import String List Bool Reals ZArith Arith.
From Verif Require Import Base Pyf StatModel.
Import ListNotations.
Open Scope string_scope.
Open Scope list_scope.

(** Python slice x[start:stop:-1], used at util.py:205-206 *)
Definition slice_down {A} (x : list A) (start stop : Z) : list A :=
  let n := Z.of_nat (length x) in
  let clip i := (if i <? 0 then (if i + n <? 0 then -1 else i + n)
                 else if n <=? i then n - 1 else i)%Z in
  let a := clip start in
  let b := clip stop in
  flat_map (fun k => match nth_error x (Z.to_nat (a - Z.of_nat k)) with Some v => [v] | None => [] end)
           (seq 0 (Z.to_nat (a - b))).

Open Scope R_scope.

(** entry k of np.arange(1 - M, M, 2), used by the numpy windows (util.py:215) *)
Definition wpos (M k : nat) : R := 1 - INR M + 2 * INR k.

(** np.hanning, np.hamming, np.bartlett and np.blackman of length M >= 2
    (util.py:215); np.ones for 'flat' (util.py:213) *)
Definition window_at (window : string) (M k : nat) : R :=
  let n := wpos M k in
  if String.eqb window "flat" then 1
  else if String.eqb window "hanning" then 1 / 2 + 1 / 2 * cos (PI * n / (INR M - 1))
  else if String.eqb window "hamming" then 54 / 100 + 46 / 100 * cos (PI * n / (INR M - 1))
  else if String.eqb window "bartlett" then
    if Rle_dec n 0 then 1 + n / (INR M - 1) else 1 - n / (INR M - 1)
  else 42 / 100 + 1 / 2 * cos (PI * n / (INR M - 1)) + 8 / 100 * cos (2 * PI * n / (INR M - 1)).

(** util.py:212-215 *)
Definition window_list (window : string) (M : nat) : list R := map (window_at window M) (seq 0 M).

(** np.convolve(a, v, mode='valid') with a the shorter one, util.py:216 *)
Definition convolve_short (a v : list R) : list R :=
  let m := length a in
  map (fun j => rsum (map (fun k => nth k a 0 * nth (j + (m - 1) - k) v 0) (seq 0 m)))
      (seq 0 (length v - m + 1)).

(** np.convolve(a, v, mode='valid') for non-empty arguments: numpy swaps them
    if the second one is longer, util.py:216 *)
Definition convolve_valid (a v : list R) : list R :=
  if (length a <=? length v)%nat then convolve_short a v else convolve_short v a.

(** util.py:201-211 *)
Definition pad (x : list R) (n : Z) (method : option string) : list R :=
  let zero m := repeat 0 (Z.to_nat m) in
  match method with
  | Some m =>
      if String.eqb m "zeros" then zero ((n - 1) / 2)%Z ++ x ++ zero (n / 2)%Z
      else if String.eqb m "reflect" then
        slice_down x ((n - 1) / 2) 0 ++ x ++ slice_down x (-1) (- (n + 1) / 2)
      else if String.eqb m "clip" then
        repeat (nth 0 x 0) (Z.to_nat ((n - 1) / 2)) ++ x ++ repeat (last x 0) (Z.to_nat (n / 2))
      else x
  | None => x
  end.

(** the window names accepted at util.py:198 *)
Definition window_names : list string := ["flat"; "hanning"; "hamming"; "bartlett"; "blackman"].

(** util.py:169-216 *)
Definition smooth (x : list R) (window_len : option Z) (window : string) (method : option string)
  : res (list R) :=
  match window_len with
  | None => Ok x
  | Some n =>
      if (Z.of_nat (length x) <? n)%Z then Err ValueError
      else if (n <? 3)%Z then Ok x
      else if negb (inb String.eqb window window_names) then Err ValueError
      else
        let s := pad x n method in
        let w := window_list window (Z.to_nat n) in
        Ok (convolve_valid (map (fun v => v / rsum w) w) s)
  end.

(** round(x) of a float: nearest integer, halves to even (util.py:159) *)
Definition py_round (x : R) : Z :=
  let k := Int_part x in
  let d := x - IZR k in
  if Rlt_dec d (1 / 2) then k
  else if Rlt_dec (1 / 2) d then (k + 1)%Z
  else if Z.even k then k else (k + 1)%Z.

(** util.py:155-166 for window_len not None.  f is applied sample by sample
    (it is evaluated on an array at util.py:164).  A division by a zero time
    step yields inf or nan and an exception in int(): modelled as ValueError.
    A vector with less than two samples is an IndexError. *)
Definition smooth_func_win (f : R -> R) (t : list R) (window_len : R) (window : string)
  : res (list R) :=
  match t with
  | t0 :: t1 :: _ =>
      let dt := t1 - t0 in
      let diffs := map (fun p => Rabs (snd p - fst p - dt)) (combine t (tl t)) in
      if Rlt_dec (1 / 100000) (rsum diffs) then Err ValueError
      else if Req_EM_T dt 0 then Err ValueError
      else
        let samples := py_round (window_len / dt) in
        let N1 := ((samples - 1) / 2)%Z in
        let N2 := (samples / 2)%Z in
        let arange m := map (fun i => INR i * dt) (seq 0 (Z.to_nat m)) in
        let t_ := map (fun a => t0 - IZR N1 * dt + a) (arange N1) ++ t
                  ++ map (fun a => last t 0 + dt + a) (arange N2) in
        smooth (map f t_) (Some samples) window None
  | _ => Err IndexError
  end.

(** util.py:150-166 *)
Definition smooth_func (f : R -> R) (t : list R) (window_len : option R) (window : string)
  : res (list R) :=
  match window_len with
  | None => Ok (map f t)
  | Some w => smooth_func_win f t w window
  end.
