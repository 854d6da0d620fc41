(** What the annotation of a source spectrum has to show, independent of the model. *)
From Coq Require Import String List Reals Sorted.
From Verif Require Import Base DepModel LabelModel.
Import ListNotations.
Open Scope string_scope.
Open Scope list_scope.

(** The quantities of the annotation in their order *)
Inductive rank : string -> nat -> Prop :=
  | r_M0 : rank "M0" 0 | r_fc : rank "fc" 1 | r_n : rank "n" 2 | r_gamma : rank "gamma" 3 | r_err : rank "fit_error" 4.

(** The line of a quantity with its value *)
Inductive line_for : string -> R -> list shown -> Prop :=
  | l_M0 x : line_for "M0" x [SText "M$_0$="; SNumber x (Expo 1); SText " Nm"]
  | l_fc x : line_for "fc" x [SText "f$_{\rm{c}}$="; SNumber x (Fixed 1); SText " Hz"]
  | l_n x : line_for "n" x [SText "n="; SNumber x (Fixed 1)]
  | l_gamma x : line_for "gamma" x [SText "$\gamma$="; SNumber x (Fixed 2)]
  | l_err x : line_for "fit_error" x [SText "err="; SNumber x (Fixed 2)].

(** The key k has the number x in the dictionary *)
Definition has (d : fields) (k : string) (x : R) : Prop := NoDup (map fst d) /\ In (k, Some x) d.

(** No listed quantity is None *)
Definition numbers (d : fields) : Prop := NoDup (map fst d) /\ forall k, In (k, None) d -> ~ exists r, rank k r.

(** The quantities ks are those of the dictionary, in order *)
Definition listed (d : fields) (ks : list string) : Prop :=
  (forall k, In k ks <-> (exists r, rank k r) /\ In k (map fst d)) /\
  StronglySorted (fun k k' => forall r r', rank k r -> rank k' r' -> (r < r')%nat) ks.

(** A part of a text and what is shown for it *)
Inductive replaced (d : fields) : part -> shown -> Prop :=
  | p_lit s : replaced d (Lit s) (SText s)
  | p_field k x st : has d k x -> replaced d (Field k st) (SNumber x st)
  | p_none k : NoDup (map fst d) -> In (k, None) d -> replaced d (Field k Plain) (SText "None").

(** There is something in a text *)
Definition nonempty (parts : list part) : Prop := exists p, In p parts /\ p <> Lit "".
