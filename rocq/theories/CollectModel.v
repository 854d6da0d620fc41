(** Model of [collect_results], /repo/qopen/core.py:353-397. *)
From Coq Require Import String List Bool Arith.
From Verif Require Import Base Pyf.
Import ListNotations.
Open Scope string_scope.
Open Scope list_scope.

(** A value stored under a key of an event result: one number (v0), one number
    per frequency (g0, b, error, W) or one list per station (R).
    Simplification: None inside a list is represented by nan, which is what
    [np.array(..., dtype=float)] makes of it (core.py:393-396). *)
Inductive rval :=
| VNum (x : pyf)
| VList (l : list pyf)
| VSites (d : list (string * list pyf)).

(** the result of one event, a dictionary *)
Definition evdict := list (string * rval).

(** A collected entry: event ids, rows or rows per station. *)
Inductive cval :=
| CIds (ids : list string)
| CRows (rows : list rval)
| CSites (d : list (string * list rval)).

(** [freq_getter], core.py:362-366; a number or dictionary cannot be indexed by
    freqi (TypeError, KeyError).  Simplification: freqi is not negative. *)
Definition freq_getter (freqi : option nat) (r : rval) (c : string) : res rval :=
  match freqi with
  | None => Ok r
  | Some i =>
      if inb String.eqb c ["eventid"; "v0"] then Ok r
      else match r with
           | VList l => match nth_error l i with
                        | Some x => Ok (VNum x)
                        | None => Err IndexError
                        end
           | VNum _ => Err TypeError
           | VSites _ => Err KeyError
           end
  end.

(** [col[c].append(x)] for a defaultdict(list), core.py:380, 385.  Appending to
    the per-station dictionary is an AttributeError (the key R with a value of
    another kind, which is not reached for the keys of results). *)
Definition append_id (col : list (string * cval)) (c : string) (x : string)
  : res (list (string * cval)) :=
  match dget String.eqb col c with
  | None => Ok (dset String.eqb col c (CIds [x]))
  | Some (CIds l) => Ok (dset String.eqb col c (CIds (l ++ [x])))
  | Some _ => Err AttributeError
  end.
(** see above *)
Definition append_row (col : list (string * cval)) (c : string) (x : rval)
  : res (list (string * cval)) :=
  match dget String.eqb col c with
  | None => Ok (dset String.eqb col c (CRows [x]))
  | Some (CRows l) => Ok (dset String.eqb col c (CRows (l ++ [x])))
  | Some _ => Err AttributeError
  end.

(** [col['R'][sta].append(x)], core.py:383, also a defaultdict(list) *)
Definition append_site (d : list (string * list rval)) (sta : string) (x : rval)
  : list (string * list rval) :=
  match dget String.eqb d sta with
  | None => dset String.eqb d sta [x]
  | Some l => dset String.eqb d sta (l ++ [x])
  end.

(** core.py:378-385: one key of one event.  The value of R of an event is a
    dictionary; other values have no [items] (AttributeError). *)
Definition collect_key (freqi : option nat) (eventid : string) (res_ : evdict)
    (acc : res (list (string * cval))) (c : string) : res (list (string * cval)) :=
  do col <- acc;
  if String.eqb c "eventid" then append_id col c eventid
  else if String.eqb c "R" && dmem String.eqb res_ "R" then
    match dget String.eqb res_ "R", dget String.eqb col "R" with
    | Some (VSites R), Some (CSites d) =>
        do d' <- fold_left
             (fun acc sR => do d <- acc;
                            do x <- freq_getter freqi (VList (snd sR)) "R";
                            Ok (append_site d (fst sR) x)) R (Ok d);
        Ok (dset String.eqb col "R" (CSites d'))
    | _, _ => Err AttributeError
    end
  else match dget String.eqb res_ c with
       | Some r => do x <- freq_getter freqi r c; append_row col c x
       | None => Ok col
       end.

(** core.py:375-385: the loop over the events *)
Definition collect_event (freqi : option nat) (collect : list string)
    (acc : res (list (string * cval))) (ev : string * option evdict)
  : res (list (string * cval)) :=
  match snd ev with
  | None => acc
  | Some r => fold_left (collect_key freqi (fst ev) r) collect acc
  end.

(** [np.array(rows, dtype=float)], core.py:393, 396: rows that are all numbers
    or all lists of one length; dictionaries cannot be converted *)
Definition to_array (rows : list rval) : res (list rval) :=
  match rows with
  | [] => Ok []
  | VNum _ :: rest =>
      if forallb (fun r => match r with VNum _ => true | _ => false end) rest
      then Ok rows
      else if existsb (fun r => match r with VSites _ => true | _ => false end) rest
           then Err TypeError else Err ValueError
  | VList l :: rest =>
      if forallb (fun r => match r with
                           | VList l' => Nat.eqb (List.length l') (List.length l)
                           | _ => false end) rest
      then Ok rows
      else if existsb (fun r => match r with VSites _ => true | _ => false end) rest
           then Err TypeError else Err ValueError
  | VSites _ :: _ => Err TypeError
  end.

(** core.py:388-396: conversion of the entries *)
Definition convert_key (acc : res (list (string * cval))) (c : string)
  : res (list (string * cval)) :=
  do col <- acc;
  if String.eqb c "eventid" then Ok col
  else match dget String.eqb col c with
       | Some (CSites d) =>
           do d' <- mapM (fun sr => do a <- to_array (snd sr); Ok (fst sr, a)) d;
           Ok (dset String.eqb col c (CSites d'))
       | Some (CRows rows) =>
           do a <- to_array rows; Ok (dset String.eqb col c (CRows a))
       | Some (CIds _) => Err ValueError
       | None => Ok col
       end.

(** [collect_results], core.py:353-397, for the value of results['events'] *)
Definition collect_results (events : list (string * option evdict))
    (only : option (list string)) (freqi : option nat)
  : res (list (string * cval)) :=
  let collect := match only with
                 | None => ["g0"; "b"; "error"; "R"; "W"; "eventid"; "v0"]
                 | Some l => l
                 end in
  let col := if inb String.eqb "R" collect then [("R", CSites [])] else [] in
  do col <- fold_left (collect_event freqi collect) events (Ok col);
  fold_left convert_key collect (Ok col).
