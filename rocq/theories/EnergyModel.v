(** Model of the observed energy, /repo/qopen/core.py:156-195.
    Samples are reals (rounding is not modelled). *)
From Coq Require Import List Bool Reals Lra ZArith.
From Verif Require Import Base Pyf.
Import ListNotations.
Open Scope R_scope.

Section Energy.
  (** [scipy.fftpack.hilbert], core.py:165: any function of the data; the
      theorems state what they need of it. *)
  Variable hilbert : list R -> list R.

  (** [energy1c], core.py:156-166.  Simplification: a zero [df] or [fs] gives
      infinities in numpy; the theorems have positive values. *)
  Definition energy1c (data : list R) (rho df fs : R) : list R :=
    map (fun xh => rho * (fst xh * fst xh + snd xh * snd xh) / 2 / df / fs)
        (combine data (hilbert data)).

  (** [max(Ns)] and [min(Ns)], core.py:183: ValueError for an empty list *)
  Definition py_max (Ns : list nat) : res nat :=
    match Ns with
    | [] => Err ValueError
    | n :: l => Ok (fold_left Nat.max l n)
    end.
  (** see above, core.py:183 *)
  Definition py_min (Ns : list nat) : res nat :=
    match Ns with
    | [] => Err ValueError
    | n :: l => Ok (fold_left Nat.min l n)
    end.

  (** [np.sum(data, axis=0)] for rows of equal length, core.py:189 *)
  Fixpoint sum_rows (rows : list (list R)) : list R :=
    match rows with
    | [] => []
    | [r] => r
    | r :: rest => map (fun xy => fst xy + snd xy) (combine r (sum_rows rest))
    end.

  (** [np.mean], core.py:194; the mean of nothing is nan, None here *)
  Definition np_mean (l : list R) : option R :=
    match l with
    | [] => None
    | _ => Some (fold_right Rplus 0 l / INR (length l))
    end.

  (** one element of [tr.data / mean], core.py:195, with the float results of a
      division by zero *)
  Definition np_div (x : R) (m : option R) : pyf :=
    match m with
    | None => FNan
    | Some m =>
        if Req_EM_T m 0
        then (if Req_EM_T x 0 then FNan else if Rlt_dec x 0 then FNInf else FPInf)
        else FNum (x / m)
    end.

  (** [observed_energy], core.py:169-195, for a stream given by the data of its
      traces.  Simplifications: the header of the result is left out;
      [coda_slice = (a, n)] stands for the samples a, ..., a+n-1 that
      [tr.slice] selects for the coda normalisation window (the header
      determines them, the data do not). *)
  Definition observed_energy (stream : list (list R)) (rho df : R)
      (coda_slice : option (nat * nat)) (fs : R) (tolerance : Z)
    : res (list pyf) :=
    let data := map (fun tr => energy1c tr rho df fs) stream in
    let Ns := map (@length R) data in
    do mx <- py_max Ns;
    do mn <- py_min Ns;
    if Z.ltb tolerance (Z.of_nat mx - Z.of_nat mn) then Err SkipError
    else
      let data := if Z.ltb 0 (Z.of_nat mx - Z.of_nat mn)
                  then map (firstn mn) data else data in
      let data := sum_rows data in
      match coda_slice with
      | None => Ok (map FNum data)
      | Some (a, n) =>
          let m := np_mean (firstn n (skipn a data)) in
          Ok (map (fun x => np_div x m) data)
      end.
End Energy.
