(** Model of sort_dict, /repo/qopen/core.py:73-76, 93-94. *)
From Coq Require Import String List Bool Arith.
From Verif Require Import Base PySort.
Import ListNotations.
Open Scope string_scope.
Open Scope list_scope.

(** core.py:73-76 *)
Definition DUMP_ORDER : list string :=
  ["M0"; "Mw"; "Mcat"; "fc"; "n"; "gamma"; "freq"; "g0"; "b"; "nstations"; "error";
   "W"; "sds"; "sds_error"; "fit_error"; "R"; "events"; "v0"; "config"].

(** [order.index(k)]; ValueError if absent (core.py:94) *)
Fixpoint index_of (k : string) (order : list string) : res nat :=
  match order with
  | [] => Err ValueError
  | x :: l => if String.eqb x k then Ok O else do i <- index_of k l; Ok (S i)
  end.

(** core.py:93-94 *)
Definition sort_dict {V} (order : list string) (d : list (string * V)) : res (list (string * V)) :=
  do keyed <- mapM (fun kv => do i <- index_of (fst kv) order; Ok (i, kv)) d;
  Ok (map snd (pysort (fun a b => Nat.leb (fst a) (fst b)) keyed)).
