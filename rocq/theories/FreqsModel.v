(** Model of the frequency bands, /repo/qopen/core.py:131-153.
    Numbers are reals (rounding is not modelled). *)
From Coq Require Import List Bool Reals Lra ZArith.
From Verif Require Import Base PySort.
Import ListNotations.
Open Scope R_scope.

(** equality of dictionary keys that are numbers, core.py:144,148 *)
Definition reqb (x y : R) : bool := if Req_EM_T x y then true else false.

(** [x <= y] on numbers, as used by [sorted] at core.py:146 *)
Definition rleb (x y : R) : bool := if Rle_dec x y then true else false.

(** [int(x)]: truncation towards zero, core.py:139 *)
Definition rint (x : R) : Z :=
  if Rle_dec 0 x then Int_part x else Z.opp (Int_part (- x)).

(** [2 ** x], core.py:141,143 *)
Definition pow2 (x : R) : R := Rpower 2 x.

(** lexicographic order of bands, [sorted(fbands)], core.py:146 *)
Definition band_leb (a b : R * R) : bool :=
  if Req_EM_T (fst a) (fst b) then rleb (snd a) (snd b) else rleb (fst a) (fst b).

(** core.py:138-141: the central frequencies from max, min and step.
    [None / None] is a TypeError; dividing by a zero [min] a
    ZeroDivisionError; the logarithm of a negative number is nan and
    [int(nan)] a ValueError; a zero step gives an infinity (OverflowError,
    OtherError here) or nan if max = min; the logarithm of zero is -inf.
    [np.arange] of a negative number is empty. *)
Definition auto_cfreqs (max min step : option R) : res (list R) :=
  match max, min, step with
  | Some max, Some min, Some step =>
      if Req_EM_T min 0 then Err ZeroDivisionError
      else if Rlt_dec (max / min) 0 then Err ValueError
      else if Req_EM_T (max / min) 0 then Err OtherError
      else if Req_EM_T step 0 then
        (if Req_EM_T (max / min) 1 then Err ValueError else Err OtherError)
      else
        let max_exp := rint (ln (max / min) / step / ln 2) in
        let exponents := map (fun k => step * INR k)
                             (rev (seq 0 (Z.to_nat (max_exp + 1)))) in
        Ok (map (fun e => max / pow2 e) exponents)
  | _, _, _ => Err TypeError
  end.

(** core.py:143-144: the bands around given central frequencies.
    [2 ** -0.0 + 1] is never zero.  A missing width is a TypeError. *)
Definition bands_around (width : option R) (cfreqs : list R)
  : res (list (R * (R * R))) :=
  match width with
  | None => Err TypeError
  | Some w =>
      let df := map (fun f => f * (pow2 w - 1) / (pow2 w + 1)) cfreqs in
      Ok (dict_of reqb (map (fun df_f => let '(d, f) := df_f in (f, (f - d, f + d)))
                            (combine df cfreqs)))
  end.

(** core.py:146-148: the given bands under their centres *)
Definition bands_given (fbands : list (R * R)) : list (R * (R * R)) :=
  let fbands := pysort band_leb fbands in
  dict_of reqb (map (fun b => let '(f1, f2) := b in
                              (/ 2 * (f1 + f2), (f1, f2))) fbands).

(** [get_freqs], core.py:132-153.  Simplification: the log messages are left
    out (they cannot raise, logging reports formatting errors only). *)
Definition get_freqs (max min step width : option R)
    (cfreqs : option (list R)) (fbands : option (list (R * R)))
  : res (list (R * (R * R))) :=
  do cf <- match cfreqs, fbands with
           | None, None => do c <- auto_cfreqs max min step; Ok (Some c)
           | _, _ => Ok cfreqs
           end;
  match fbands with
  | None => match cf with
            | Some c => bands_around width c
            | None => Err TypeError
            end
  | Some fb => Ok (bands_given fb)
  end.
