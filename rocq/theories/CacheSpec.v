(** Vocabulary for the properties of the cache. *)
From Coq Require Import List Bool NArith ZArith String.
From Verif Require Import Base CacheModel.
Import ListNotations.
Open Scope N_scope.

(** code points *)
Definition is_text (s : text) : Prop := Forall (fun c => c < 1114112) s.

(** A float prints with the characters 0-9 + - . e, or inf or nan; it contains
    one of . e i n (so it is never mistaken for an int). *)
Definition is_float_repr (t : text) : Prop :=
  Forall (fun c => In c (asc "0123456789+-.einfa")) t /\ Exists (fun c => In c (asc ".ein")) t.

(** Values made of well-formed texts and floats *)
Inductive wf : pyval -> Prop :=
| wf_str s : is_text s -> wf (PStr s)
| wf_int z : wf (PInt z)
| wf_float t : is_float_repr t -> wf (PFloat t)
| wf_bool b : wf (PBool b)
| wf_none : wf PNone
| wf_tuple l : Forall wf l -> wf (PTuple l)
| wf_list l : Forall wf l -> wf (PList l)
| wf_dict l : Forall (fun p => is_text (fst p) /\ wf (snd p)) l -> wf (PDict l).

(** the results of a function which is called anew each time *)
Definition ignores_world {World Arg Val} (f : World -> Arg -> World * res Val) (g : Arg -> res Val) : Prop :=
  forall w a, snd (f w a) = g a.

(** the undecorated function recording its calls in the world *)
Definition logging {Arg Val} (g : nat -> Arg -> res Val) (w : list (Arg * res Val)) (a : Arg)
  : list (Arg * res Val) * res Val :=
  let o := g (List.length w) a in (w ++ [(a, o)], o).

(** number of recorded successful evaluations for a key *)
Definition successes {Arg Key Val} (keqb : Key -> Key -> bool) (key : Arg -> Key) (k : Key)
  (w : list (Arg * res Val)) : nat :=
  List.length (filter (fun p => keqb (key (fst p)) k && match snd p with Ok _ => true | Err _ => false end) w).
