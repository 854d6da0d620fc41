(** What is expected of a scaled curve, written without the functions of ScaleModel.v. *)
From Coq Require Import List Reals.
From Verif Require Import Pyf.
Import ListNotations.
Open Scope R_scope.

(** the curve [out] is the curve [pts] divided by one positive number *)
Definition proportional (pts : list (R * R)) (out : list (R * pyf)) : Prop :=
  exists m, 0 < m /\ Forall2 (fun p q => fst q = fst p /\ exists y, snd q = FNum y /\ y * m = snd p) pts out.

(** values between 0 and 1, with 1 among them *)
Definition unit_curve (out : list (R * pyf)) : Prop :=
  (forall x y, In (x, y) out -> exists v, y = FNum v /\ 0 <= v <= 1) /\
  exists x, In (x, FNum 1) out.
