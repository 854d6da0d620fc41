(** Model of the decorator cache, /repo/qopen/util.py:11-20, and of the printed
    form of its arguments. *)
From Coq Require Import String Ascii List Bool NArith ZArith Decimal DecimalZ.
From Verif Require Import Base.
Import ListNotations.
Open Scope list_scope.

(** ** the decorator *)
Section Cache.
(** The decorated function may read and change a world (log files, the set
    borehole_stations at core.py:1112, ...) and may raise.  The values stored are
    not changed by the callers (simplification: no aliasing). *)
Variables (World Arg Key Val : Type).
Variable keqb : Key -> Key -> bool.
Variable key : Arg -> Key.
Variable f : World -> Arg -> World * res Val.

(** util.py:14-19; the state is the dictionary cache and the world *)
Definition cached_call (s : list (Key * Val) * World) (a : Arg) : (list (Key * Val) * World) * res Val :=
  let '(c, w) := s in
  let k := key a in
  if dmem keqb c k then (s, match dget keqb c k with Some v => Ok v | None => Err KeyError end)
  else
    match f w a with
    | (w', Err e) => ((c, w'), Err e)
    | (w', Ok v) =>
        let c' := dset keqb c k v in
        ((c', w'), match dget keqb c' k with Some v => Ok v | None => Err KeyError end)
    end.

(** a sequence of calls of the decorated function, each exception being caught
    by the caller (as at core.py:1121-1130) *)
Fixpoint cached_calls (s : list (Key * Val) * World) (l : list Arg) : (list (Key * Val) * World) * list (res Val) :=
  match l with
  | [] => (s, [])
  | a :: r =>
      let '(s1, o) := cached_call s a in
      let '(s2, os) := cached_calls s1 r in
      (s2, o :: os)
  end.

End Cache.
Arguments cached_call {World Arg Key Val}.
Arguments cached_calls {World Arg Key Val}.

(** ** printed arguments *)
(** Python text: list of code points (the keys built at util.py:16) *)
Definition text := list N.

(** the arguments considered: those of get_freqs (core.py:132), filter_width
    (core.py:98) and _get_distance (core.py:1099).  A float is represented by
    its repr (which Python guarantees to differ for different floats). *)
Inductive pyval :=
| PStr (s : text)
| PInt (z : Z)
| PFloat (t : text)
| PBool (b : bool)
| PNone
| PTuple (l : list pyval)
| PList (l : list pyval)
| PDict (l : list (text * pyval)).

Open Scope N_scope.

(** hexadecimal digit, in escapes of the text built at util.py:16 *)
Definition hex_digit (d : N) : N := if d <? 10 then 48 + d else 87 + d.

(** w hexadecimal digits (util.py:16) *)
Fixpoint hex (w : nat) (c : N) : text :=
  match w with
  | O => []
  | S w' => hex w' (c / 16) ++ [hex_digit (c mod 16)]
  end.

(** text of an ascii literal (to write down printed words, util.py:16) *)
Fixpoint asc (s : string) : text :=
  match s with
  | EmptyString => []
  | String c r => N_of_ascii c :: asc r
  end.

Section Repr.
(** str.isprintable of a code point outside ascii (Unicode database) *)
Variable printable : N -> bool.

(** one character of the repr of a string with quote q (CPython unicode_repr);
    used by str() of tuples and dictionaries at util.py:16 *)
Definition esc (q c : N) : text :=
  if (c =? q) || (c =? 92) then [92; c]
  else if c =? 9 then [92; 116]
  else if c =? 10 then [92; 110]
  else if c =? 13 then [92; 114]
  else if (c <? 32) || (c =? 127) then 92 :: 120 :: hex 2 c
  else if c <? 127 then [c]
  else if printable c then [c]
  else if c <? 256 then 92 :: 120 :: hex 2 c
  else if c <? 65536 then 92 :: 117 :: hex 4 c
  else 92 :: 85 :: hex 8 c.

(** single quotes unless the text contains single but no double quotes
    (CPython unicode_repr, util.py:16) *)
Definition quote_of (s : text) : N :=
  if existsb (N.eqb 39) s && negb (existsb (N.eqb 34) s) then 34 else 39.

(** repr of a string (CPython unicode_repr, util.py:16) *)
Definition repr_str (s : text) : text :=
  let q := quote_of s in q :: flat_map (esc q) s ++ [q].

(** decimal digits (repr of an int, util.py:16) *)
Fixpoint digits (u : Decimal.uint) : text :=
  match u with
  | Nil => []
  | D0 r => 48 :: digits r | D1 r => 49 :: digits r | D2 r => 50 :: digits r
  | D3 r => 51 :: digits r | D4 r => 52 :: digits r | D5 r => 53 :: digits r
  | D6 r => 54 :: digits r | D7 r => 55 :: digits r | D8 r => 56 :: digits r
  | D9 r => 57 :: digits r
  end.

(** repr of an int (util.py:16) *)
Definition repr_int (z : Z) : text :=
  match Z.to_int z with
  | Decimal.Pos u => digits u
  | Decimal.Neg u => 45 :: digits u
  end.

(** items separated by comma and space (repr of containers, util.py:16) *)
Fixpoint join (l : list text) : text :=
  match l with
  | [] => []
  | x :: r => match r with [] => x | _ :: _ => x ++ 44 :: 32 :: join r end
  end.

(** repr (util.py:16); numpy scalars, which print differently since numpy 2,
    are not covered *)
Fixpoint repr (v : pyval) : text :=
  match v with
  | PStr s => repr_str s
  | PInt z => repr_int z
  | PFloat t => t
  | PBool true => asc "True"
  | PBool false => asc "False"
  | PNone => asc "None"
  | PTuple l => 40 :: match l with [x] => repr x ++ [44] | _ => join (map repr l) end ++ [41]
  | PList l => 91 :: join (map repr l) ++ [93]
  | PDict l => 123 :: join (map (fun p => repr_str (fst p) ++ 58 :: 32 :: repr (snd p)) l) ++ [125]
  end.

(** util.py:16: str of a tuple or dictionary is its repr *)
Definition cache_key (args : list pyval) (kwargs : list (text * pyval)) : text :=
  repr (PTuple args) ++ repr (PDict kwargs).

End Repr.
