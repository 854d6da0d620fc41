(** Traces at another time and in another unit of energy. *)
From Coq Require Import List ZArith QArith.
From Verif Require Import Base TimesModel.
Import ListNotations.

(** the same record with all its times later by d *)
Definition later (d : Z) (tr : trace) : trace :=
  {| t0 := t0 tr + d; dt := dt tr; data := data tr; origintime := origintime tr + d;
     ponset := ponset tr + d; sonset := sonset tr + d; noise_level := noise_level tr |}%Z.

(** the same record with all energies, noise included, multiplied by k *)
Definition louder (k : Q) (tr : trace) : trace :=
  {| t0 := t0 tr; dt := dt tr; data := map (Qmult k) (data tr); origintime := origintime tr;
     ponset := ponset tr; sonset := sonset tr; noise_level := option_map (Qmult k) (noise_level tr) |}.

(** the result f of the original outcome, and its error *)
Definition outcome {A B} (f : A -> B) (x : res A) : res B :=
  match x with Ok a => Ok (f a) | Err e => Err e end.
