(** Model of time expressions and data windows, /repo/qopen/core.py:283-350,
    434-440, 452-490.  Times are integers (nanoseconds), other numbers are
    rationals (rounding of floats is not modelled). *)
From Coq Require Import String Ascii List Bool Arith ZArith QArith.
From Verif Require Import Base PyStr.
Import ListNotations.
Open Scope string_scope.
Open Scope list_scope.

(** [round(x)]: to the nearest integer, halves to even.  [UTCDateTime + x] adds
    [round(x * 1e9)] nanoseconds (core.py:328, 332, 336). *)
Definition qround (q : Q) : Z :=
  let n := Qnum q in let d := Zpos (Qden q) in
  let f := (n / d)%Z in
  let r := (2 * (n mod d))%Z in
  if Z.ltb r d then f
  else if Z.ltb d r then (f + 1)%Z
  else if Z.even f then f else (f + 1)%Z.

(** [t + x] for a time t and a number of seconds x *)
Definition add_s (t : Z) (x : Q) : Z := (t + qround (x * inject_Z 1000000000))%Z.

(** A trace of energy data: time of the first sample, sampling interval
    (simplification: a whole number of nanoseconds), samples, origin time,
    onsets and noise level (missing before the noise has been determined). *)
Record trace := { t0 : Z; dt : Z; data : list Q;
                  origintime : Z; ponset : Z; sonset : Z;
                  noise_level : option Q }.

(** [trace.slice(starttime=st)] (core.py:322): obspy cuts at the sample nearest
    to st (halves away from zero); before the first sample nothing is cut, half
    an interval after the last sample nothing is left.  Only the samples matter
    here. *)
Definition slice_from (tr : trace) (st : Z) : list Q :=
  let k := ((2 * (st - t0 tr) + dt tr) / (2 * dt tr))%Z in
  if Z.leb k 0 then data tr else skipn (Z.to_nat k) (data tr).

(** [q < r] *)
Definition qltb (q r : Q) : bool := negb (Qle_bool r q).

(** [np.where(data < thr)[0][0]], else [len(data)] (core.py:325-328) *)
Fixpoint first_below (thr : Q) (l : list Q) : nat :=
  match l with
  | [] => 0%nat
  | x :: r => if qltb x thr then 0%nat else S (first_below thr r)
  end.

Section Times.
  (** [float(s)] (core.py:323, 332, 336): None for a ValueError.
      Simplification: nan and infinities count as ValueError (adding them to a
      time raises as well). *)
  Variable pyfloat : string -> option Q.

  (** a parsed number or the ValueError of [float] *)
  Definition to_float (s : string) : res Q :=
    match pyfloat s with Some q => Ok q | None => Err ValueError end.

  (** core.py:330-338: the branches without SNR, for a lower case text *)
  Definition plain_time (time : string) (tr : trace) : res Z :=
    let ot := origintime tr in
    let p := ponset tr in
    let s := sonset tr in
    if ends_with "stt" time || ends_with "ptt" time then
      let rel := if String.eqb (substring (String.length time - 3) 1 time) "p" then p else s in
      do x <- to_float (drop_last 3 time);
      (* rel - ot is in seconds *)
      Ok (add_s ot (x * (inject_Z (rel - ot) / inject_Z 1000000000)))
    else if (String.prefix "s" time || String.prefix "p" time || String.prefix "ot" time)
            && ends_with "s" time then
      let rel := if String.prefix "p" time then p
                 else if String.prefix "s" time then s else ot in
      do x <- to_float (if String.prefix "ot" time
                        then drop 2 (drop_last 1 time) else drop 1 (drop_last 1 time));
      Ok (add_s rel x)
    else Err ValueError.

  (** core.py:321-329: the SNR branch once the start is known *)
  Definition snr_time (time : string) (tr : trace) (starttime : Z) : res Z :=
    do snr <- to_float (drop_last 3 time);
    match noise_level tr with
    | None => Err AttributeError
    | Some nl =>
        let index := first_below (snr * nl) (slice_from tr starttime) in
        Ok (starttime + Z.of_nat index * dt tr)%Z
    end.

  (** [time2utc(time1, trace)], core.py:317, for the text in front of '>': it
      contains no '>' and there is no start, so an SNR text fails the assertion
      at core.py:321 *)
  Definition time_before (time1 : string) (tr : trace) : res Z :=
    if ends_with "snr" time1 then Err AssertionError else plain_time time1 tr.

  (** [time2utc], core.py:283-338.  Comparing with a missing start
      (core.py:318) is a TypeError, more than one '>' a ValueError. *)
  Definition time2utc (time : string) (tr : trace) (starttime : option Z) : res Z :=
    let time := py_lower time in
    if ends_with "snr" time then
      do x <- (if has_char ">" time then
                 match split_on ">" time with
                 | [time1; time] =>
                     if String.eqb time1 "" then Ok (time, starttime)
                     else
                       do st <- time_before time1 tr;
                       match starttime with
                       | None => Err TypeError
                       | Some _ => Ok (time, Some st)
                       end
                 | _ => Err ValueError
                 end
               else Ok (time, starttime));
      let '(time, starttime) := x in
      match starttime with
      | None => Err AssertionError
      | Some st => snr_time time tr st
      end
    else plain_time time tr.

  (** one end of a window: a text or a list of texts (core.py:340-343) *)
  Inductive wval := One (s : string) | Many (l : list string).

  (** [max(times)] and [min(times)], core.py:346 *)
  Definition max_time (l : list Z) : res Z :=
    match l with [] => Err ValueError | x :: r => Ok (fold_left Z.max r x) end.
  (** see above *)
  Definition min_time (l : list Z) : res Z :=
    match l with [] => Err ValueError | x :: r => Ok (fold_left Z.min r x) end.

  (** one round of the loop, core.py:345-349 *)
  Definition window_end (val : wval) (tr : trace) (starttime : option Z) : res Z :=
    match val with
    | Many l =>
        do times <- mapM (fun v => time2utc v tr starttime) l;
        match starttime with None => max_time times | Some _ => min_time times end
    | One s => time2utc s tr starttime
    end.

  (** [tw2utc], core.py:333-350, for a window of two values *)
  Definition tw2utc (tw : wval * wval) (tr : trace) : res (Z * Z) :=
    do st <- window_end (fst tw) tr None;
    do t <- window_end (snd tw) tr (Some st);
    Ok (st, t).
End Times.

(** [_check_times], core.py:434-440: None if the data are accepted.  The
    tolerance is in nanoseconds. *)
Definition check_times (start end_ : Z) (tw : Z * Z) (tol : Z) : option (Z * Z) :=
  let d1 := (fst tw - start)%Z in
  let d2 := (end_ - snd tw)%Z in
  if Z.ltb 0 (d1 + tol) && Z.ltb 0 (d2 + tol) then None else Some (d1, d2).

(** sample i *)
Definition samp (d : list Q) (i : nat) : Q := nth i d 0.

(** [scipy.signal.argrelmin(data)[0]] and [argrelmax], core.py:461-462: strictly
    below (above) both neighbours; the first and last sample never are *)
Definition argrelmin (d : list Q) : list nat :=
  filter (fun i => qltb (samp d i) (samp d (i - 1)) && qltb (samp d i) (samp d (i + 1)))
         (seq 1 (List.length d - 2)).
(** see above *)
Definition argrelmax (d : list Q) : list nat :=
  filter (fun i => qltb (samp d (i - 1)) (samp d i) && qltb (samp d (i + 1)) (samp d i))
         (seq 1 (List.length d - 2)).

(** core.py:465-468: the minima that are lower than all before; [last] is the
    latest one *)
Fixpoint lower_mins (d : list Q) (last : nat) (mins : list nat) : list nat :=
  match mins with
  | [] => []
  | m :: r => if qltb (samp d m) (samp d last) then m :: lower_mins d m r
              else lower_mins d last r
  end.

(** [data[ma] / data[mi] > ratio] with the float results of a division by zero,
    core.py:476 *)
Definition exceeds (a b ratio : Q) : bool :=
  if Qeq_bool b 0 then qltb 0 a else qltb ratio (a / b).

(** core.py:471-475: the last of the minima before ma, else sample 0 *)
Definition min_before (mins : list nat) (ma : nat) : nat :=
  List.last (filter (fun m => Nat.ltb m ma) mins) 0%nat.

(** core.py:470-477 *)
Fixpoint first_outstanding (d : list Q) (ratio : Q) (mins maxs : list nat) : option nat :=
  match maxs with
  | [] => None
  | ma :: r =>
      let mi := min_before mins ma in
      if exceeds (samp d ma) (samp d mi) ratio then Some mi
      else first_outstanding d ratio mins r
  end.

(** [_get_local_minimum], core.py:452-477, for the smoothed data: [smoothed] is
    None if there is no smoothing, else the result of [smooth_] (its ValueError
    is ignored) *)
Definition get_local_minimum (tr : trace) (smoothed : option (res (list Q))) (ratio : Q)
  : res (option Z) :=
  do d <- match smoothed with
          | None => Ok (data tr)
          | Some (Ok d) => Ok d
          | Some (Err ValueError) => Ok (data tr)
          | Some (Err e) => Err e
          end;
  let mins := argrelmin d in
  let maxs := argrelmax d in
  match mins, maxs with
  | [], _ | _, [] => Ok None
  | m :: ms, _ =>
      let mins := m :: lower_mins d m ms in
      match first_outstanding d ratio mins maxs with
      | Some mi => Ok (Some (t0 tr + Z.of_nat mi * dt tr)%Z)
      | None => Ok None
      end
  end.
