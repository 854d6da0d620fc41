(** Specification vocabulary for geometric means. *)
From Coq Require Import List Bool Reals Lra.
From Verif Require Import Pyf.
Import ListNotations.
Open Scope R_scope.

(** A valid datum is a finite positive number. *)
Definition valid (x : pyf) : option R :=
  match x with FNum r => if Rlt_dec 0 r then Some r else None | _ => None end.

(** The valid data, in order. *)
Fixpoint valid_data (l : list pyf) : list R :=
  match l with
  | [] => []
  | x :: l' => match valid x with Some r => r :: valid_data l' | None => valid_data l' end
  end.

(** The valid data with their weights. *)
Fixpoint valid_weighted (l : list pyf) (ws : list R) : list (R * R) :=
  match l, ws with
  | x :: l', w :: ws' =>
      match valid x with
      | Some r => (w, r) :: valid_weighted l' ws'
      | None => valid_weighted l' ws'
      end
  | _, _ => []
  end.

(** product of a vector *)
Definition prod (l : list R) : R := fold_right Rmult 1 l.

(** n-th root of the product *)
Definition geometric_mean (l : list R) : R := Rpower (prod l) (/ INR (length l)).

(** product of the powers x^w, to the power one over the sum of weights *)
Definition weighted_geometric_mean (l : list (R * R)) : R :=
  Rpower (prod (map (fun p => Rpower (snd p) (fst p)) l))
         (/ fold_right Rplus 0 (map fst l)).

(** multiply a float by a real number (nan and infinities stay, for k > 0) *)
Definition fscale (k : R) (x : pyf) : pyf :=
  match x with FNum r => FNum (k * r) | y => y end.
