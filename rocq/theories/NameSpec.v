(** Independent specification for the names of the files of plots and for saving figures (C122, C123). *)
From Coq Require Import String Ascii List Reals Arith.
From Verif Require Import Base NameModel.
Import ListNotations.
Open Scope string_scope.
Open Scope list_scope.

(** value of a digit *)
Definition digit (a : ascii) : option nat :=
  let n := nat_of_ascii a in if andb (Nat.leb 48 n) (Nat.leb n 57) then Some (n - 48) else None.

(** value of a text of digits *)
Fixpoint number_from (acc : nat) (s : string) : option nat :=
  match s with
  | EmptyString => Some acc
  | String a r => match digit a with Some d => number_from (10 * acc + d) r | None => None end
  end.
Definition number (s : string) : option nat := match s with EmptyString => None | _ => number_from 0 s end.

(** the text is a decimal number with two decimals, [n] or more digits before the point, and the
    value [v] *)
Definition decimal2 (n : nat) (s : string) (v : R) : Prop :=
  exists i d a b, s = (i ++ "." ++ d)%string /\ (n <= String.length i)%nat /\ String.length d = 2%nat /\
    number i = Some a /\ number d = Some b /\ v = (INR a + INR b / 100)%R.

(** the character occurs in the text *)
Fixpoint occurs (c : ascii) (s : string) : Prop :=
  match s with EmptyString => False | String a r => a = c \/ occurs c r end.

(** name of a kind of plot *)
Definition kind_name (p : bplot) : string :=
  match p with Energies => "energies" | Optimization => "optimization" | Fits => "fits" end.

(** numbers that are not rounded to the same hundredth *)
Definition apart (x y : R) : Prop := (1 / 100 < Rabs (x - y))%R.

(** the plot is configured and there is something to draw *)
Definition wanted_plot (nenergies : nat) (fixed optimized : bool) (energies optimization fits : option band_plot)
    (p : bplot) (o : band_plot) : Prop :=
  match p with
  | Energies => energies = Some o /\ (0 < nenergies)%nat
  | Optimization => optimization = Some o /\ fixed = false /\ optimized = true
  | Fits => fits = Some o
  end.

(** the file of a plot: the given name or the default one *)
Definition file_of (evs : list string) (first : string) (band : R * R) (p : bplot) (o : band_plot) (f : string) : Prop :=
  exists n, (bp_fname o = Some n \/ (bp_fname o = None /\ n = default_fname p)) /\ f = fst (fname_and_title evs first band n).

(** the text ends with another character than '/' *)
Definition no_slash_end (d : string) : Prop := exists d' c, d = (d' ++ String c "")%string /\ c <> "/"%char.

(** no file is written and the figure is not closed *)
Definition harmless (a : action) : Prop := match a with Size _ _ | Title _ => True | _ => False end.
