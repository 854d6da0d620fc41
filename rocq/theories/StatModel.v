(** Model of the statistics of /repo/qopen/util.py:65-147 over the reals.

    A numpy masked array of floats is a list of [option R], [None] being a
    masked entry.  Rounding is not modelled. *)
From Coq Require Import List Bool Reals Lra Arith.
From Verif Require Import Base Pyf.
Import ListNotations.
Open Scope R_scope.

(** numpy sum of a vector *)
Definition rsum (l : list R) : R := fold_right Rplus 0 l.

(** numpy.log(numpy.ma.masked_invalid(data)), util.py:119: nan and infinities
    are masked by masked_invalid; numpy's log of a masked array masks entries
    outside its domain x > 0. *)
Definition log_masked (x : pyf) : option R :=
  match x with
  | FNum r => if Rlt_dec 0 r then Some (ln r) else None
  | _ => None
  end.

(** the unmasked entries, [data[~data.mask]], util.py:105 *)
Fixpoint unmasked (l : list (option R)) : list R :=
  match l with
  | [] => []
  | Some x :: l' => x :: unmasked l'
  | None :: l' => unmasked l'
  end.

(** pairs (weight, value) of unmasked entries: [weights * ~data.mask],
    util.py:67, 75-76; weights and data have the same length. *)
Fixpoint wunmasked (l : list (option R)) (ws : list R) : list (R * R) :=
  match l, ws with
  | Some x :: l', w :: ws' => (w, x) :: wunmasked l' ws'
  | None :: l', _ :: ws' => wunmasked l' ws'
  | _, _ => []
  end.

(** numpy.ma.average(data, weights=weights), util.py:67, for one vector.
    Division by a zero sum of weights is masked. *)
Definition average (l : list (option R)) (ws : option (list R)) : option R :=
  match ws with
  | None =>
      let v := unmasked l in
      match v with [] => None | _ => Some (rsum v / INR (length v)) end
  | Some ws =>
      let v := wunmasked l ws in
      let scl := rsum (map fst v) in
      if Req_EM_T scl 0 then None
      else Some (rsum (map (fun p => fst p * snd p) v) / scl)
  end.

(** util.py:65-80 for one vector (axis=None).  The standard deviation [None]
    stands for nan (fewer than two entries, line 69) and for the masked
    quotient if the unbiased denominator vanishes. *)
Definition weighted_stat (l : list (option R)) (ws : option (list R)) (unbiased : bool)
  : option R * option R :=
  let mean := average l ws in
  let m := match mean with Some m => m | None => 0 end in
  let v := unmasked l in
  let std :=
    if (length v <? 2)%nat then None
    else match ws with
    | None =>
        (* numpy.ma.std(data, ddof=unbiased), line 71 *)
        let cnt := (length v - (if unbiased then 1 else 0))%nat in
        if (cnt <=? 0)%nat then None
        else Some (sqrt (rsum (map (fun x => (x - m) ^ 2) v) / INR cnt))
    | Some w =>
        match average (map (option_map (fun x => (x - m) ^ 2)) l) ws with
        | None => None
        | Some var =>
            if unbiased then
              let V1 := rsum (map fst (wunmasked l w)) in
              let V2 := rsum (map (fun p => fst p ^ 2) (wunmasked l w)) in
              let den := 1 - V2 / V1 ^ 2 in
              if Req_EM_T den 0 then None else Some (sqrt (var / den))
            else Some (sqrt var)
        end
    end in
  (mean, std).

Section Robust.
  (** statsmodels RLM(data, ones).fit(): params[0] and scale, util.py:110-111;
      an arbitrary function of the data. *)
  Variable rlm : list R -> R * R.

  (** numpy.ptp(data) == 0, util.py:108 *)
  Definition ptp0 (v : list R) : bool :=
    match v with
    | [] => true
    | x :: v' => forallb (fun y => if Req_EM_T y x then true else false) v'
    end.

  (** util.py:104-111: robust statistics of one vector; a masked mean is
      [None]. *)
  Definition robust_stat (l : list (option R)) (fall_back : nat)
    : option R * option R :=
    let v := unmasked l in
    if (length v <? fall_back)%nat then weighted_stat (map Some v) None true
    else if ptp0 v then (Some (rsum v / INR (length v)), Some 0)
    else (Some (fst (rlm v)), Some (snd (rlm v))).

  (** util.py:114-127 for one vector *)
  Definition gstat (data : list pyf) (ws : option (list R)) (unbiased robust : bool)
    (fall_back : nat) : res (option R * option R) :=
    let data := map log_masked data in
    if robust then
      match ws with
      | Some _ => Err NotImplementedError
      | None => Ok (robust_stat data fall_back)
      end
    else Ok (weighted_stat data ws unbiased).

  (** util.py:130-132 for one vector; [None] is a masked result. *)
  Definition gmean (data : list pyf) (ws : option (list R)) (robust : bool)
    (fall_back : nat) : res (option R) :=
    do me <- gstat data ws true robust fall_back;
    Ok (option_map exp (fst me)).

  (** Column [j] of a table given by rows (all rows have the same length). *)
  Definition column (rows : list (list pyf)) (j : nat) : list pyf :=
    map (fun row => nth j row FNan) rows.

  (** util.py:134-139 with axis=0, the only use in qopen besides scalars:
      [gmean] along the first axis works column by column (weights are one per
      row); masked and nan entries become None. *)
  Definition gmeanlist (rows : list (list pyf)) (ncols : nat)
    (ws : option (list R)) (robust : bool) (fall_back : nat)
    : res (list (option R)) :=
    mapM (fun j => gmean (column rows j) ws robust fall_back) (seq 0 ncols).

  (** util.py:142-147 for one vector: mean, lower and upper error *)
  Definition gerr (data : list pyf) (ws : option (list R)) (unbiased robust : bool)
    (fall_back : nat) : res (option (R * R * R)) :=
    do me <- gstat data ws unbiased robust fall_back;
    match me with
    | (Some mean, Some err) =>
        let err1 := exp mean - exp (mean - err) in
        let err2 := exp (mean + err) - exp mean in
        Ok (Some (exp mean, err1, err2))
    | _ => Ok None
    end.
End Robust.
