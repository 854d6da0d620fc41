(** Mirror of filter_width, /repo/qopen/core.py 97-128. *)
From Coq Require Import String Ascii List Bool Reals Arith.
From Verif Require Import Base.
Import ListNotations.
Open Scope R_scope.

(** [s.strip('pass')], core.py:119: the letters p, a and s are removed on both sides *)
Definition pas (c : ascii) : bool := (Ascii.eqb c "p" || Ascii.eqb c "a" || Ascii.eqb c "s")%char.

(** on the left side *)
Fixpoint lstrip (s : string) : string :=
  match s with
  | EmptyString => EmptyString
  | String c r => if pas c then lstrip r else s
  end.

(** on the right side *)
Fixpoint rstrip (s : string) : string :=
  match s with
  | EmptyString => EmptyString
  | String c r => match rstrip r with
                  | EmptyString => if pas c then EmptyString else String c EmptyString
                  | t => String c t
                  end
  end.

(** the critical frequencies as fractions of the Nyquist frequency: one or two *)
Inductive cutoff := One (f : R) | Two (f1 f2 : R).

(** the kind of filter *)
Inductive btype := Low | High | Band.

(** the names of the filters known to scipy.signal.iirfilter that are left by strip *)
Definition btype_of (s : string) : option btype :=
  if (String.eqb s "low" || String.eqb s "l")%bool then Some Low
  else if (String.eqb s "high" || String.eqb s "h")%bool then Some High
  else if String.eqb s "band" then Some Band
  else None.

(** two numbers whose ratio decides about the response at the angular frequency [w] of
    the Butterworth filter made digital by the bilinear transform: passed and stopped part *)
Definition parts (ty : btype) (c : cutoff) (w : R) : R * R :=
  let s := sin (w / 2) in
  let k := cos (w / 2) in
  match ty, c with
  | Low, One f => (k * tan (PI * f / 2), s)
  | High, One f => (s, k * tan (PI * f / 2))
  | Band, Two f1 f2 =>
      let o1 := tan (PI * f1 / 2) in
      let o2 := tan (PI * f2 / 2) in
      (s * k * (o2 - o1), s ^ 2 - o1 * o2 * k ^ 2)
  | _, _ => (0, 0)
  end.

(** [np.abs(h) ** 2] for one frequency *)
Definition response (ty : btype) (c : cutoff) (corners : nat) (w : R) : R :=
  match corners with
  | O => 1
  | _ => let '(a, d) := parts ty c w in a ^ (2 * corners) / (a ^ (2 * corners) + d ^ (2 * corners))
  end.

(** scipy.signal.iirfilter and freqz with 512 frequencies, core.py:119-121: the squared
    response for each frequency.  Simplification: exact arithmetic; the coefficients of
    the filter are replaced by the closed form of its response. *)
Definition frequencies : list R := map (fun k => PI * INR k / 512) (seq 0 512).

Definition squared_response (corners : nat) (c : cutoff) (name : string) : res (list R) :=
  match btype_of name, c with
  | None, _ => Err ValueError
  | Some Band, One _ => Err ValueError
  | Some Low, Two _ _ | Some High, Two _ _ => Err ValueError
  | Some ty, One f =>
      if (Rlt_dec 0 f) then if Rlt_dec f 1 then Ok (map (response ty c corners) frequencies) else Err ValueError
      else Err ValueError
  | Some ty, Two f1 f2 =>
      if (Rlt_dec 0 f1) then if Rlt_dec f2 1 then
        if Rlt_dec f1 f2 then Ok (map (response ty c corners) frequencies) else Err ValueError
      else Err ValueError else Err ValueError
  end.

(** filter_width, core.py:98-128; None is [None], the operations with it are TypeErrors.
    Simplification: sr is not 0; the log message is left out. *)
Definition filter_width (sr : R) (freq freqmin freqmax : option R) (corners : nat) (zerophase : bool)
    (type : string) : res R :=
  do fs <- if String.eqb type "bandpass" then
             match freqmin, freqmax with
             | Some f1, Some f2 => Ok (Two (f1 / (0.5 * sr)) (f2 / (0.5 * sr)))
             | _, _ => Err TypeError
             end
           else match freq with Some f => Ok (One (f / (0.5 * sr))) | None => Err TypeError end;
  do h2 <- squared_response corners fs (rstrip (lstrip type));
  let df := (nth 1 frequencies 0 - nth 0 frequencies 0) / 2 / PI * sr in
  Ok (df * fold_right Rplus 0 (map (fun x => x ^ (if zerophase then 2 else 1)) h2)).
