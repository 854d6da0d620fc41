(** Arithmetic of Python/numpy floats with their special values, as used by
    /repo/qopen/core.py:545-905.  Rounding, overflow and signed zeros are not
    modelled. *)
From Coq Require Import List Bool Reals Lra Arith.
From Verif Require Import Base Pyf.
Import ListNotations.
Open Scope R_scope.

(** [x + y] *)
Definition fadd (x y : pyf) : pyf :=
  match x, y with
  | FNan, _ | _, FNan => FNan
  | FPInf, FNInf | FNInf, FPInf => FNan
  | FPInf, _ | _, FPInf => FPInf
  | FNInf, _ | _, FNInf => FNInf
  | FNum a, FNum b => FNum (a + b)
  end.

(** [-x] *)
Definition fneg (x : pyf) : pyf :=
  match x with
  | FNan => FNan
  | FPInf => FNInf
  | FNInf => FPInf
  | FNum a => FNum (- a)
  end.

(** [x - y] *)
Definition fsub (x y : pyf) : pyf := fadd x (fneg y).

(** infinity with the sign of a, nan for 0 *)
Definition finf (a : R) : pyf :=
  if Rlt_dec 0 a then FPInf else if Rlt_dec a 0 then FNInf else FNan.

(** [x * y] *)
Definition fmul (x y : pyf) : pyf :=
  match x, y with
  | FNan, _ | _, FNan => FNan
  | FPInf, FPInf | FNInf, FNInf => FPInf
  | FPInf, FNInf | FNInf, FPInf => FNInf
  | FPInf, FNum b | FNum b, FPInf => finf b
  | FNInf, FNum b | FNum b, FNInf => fneg (finf b)
  | FNum a, FNum b => FNum (a * b)
  end.

(** [x / y] (numpy: no exception for a division by zero) *)
Definition fdiv (x y : pyf) : pyf :=
  match x, y with
  | FNan, _ | _, FNan => FNan
  | FPInf, FPInf | FPInf, FNInf | FNInf, FPInf | FNInf, FNInf => FNan
  | FPInf, FNum b => if Req_EM_T b 0 then FPInf else finf b
  | FNInf, FNum b => if Req_EM_T b 0 then FNInf else fneg (finf b)
  | FNum _, FPInf | FNum _, FNInf => FNum 0
  | FNum a, FNum b => if Req_EM_T b 0 then finf a else FNum (a / b)
  end.

(** [np.log(x)] *)
Definition flog (x : pyf) : pyf :=
  match x with
  | FNan | FNInf => FNan
  | FPInf => FPInf
  | FNum a => if Rlt_dec 0 a then FNum (ln a) else if Rlt_dec a 0 then FNan else FNInf
  end.

(** [np.exp(x)] *)
Definition fexp (x : pyf) : pyf :=
  match x with
  | FNan => FNan
  | FPInf => FPInf
  | FNInf => FNum 0
  | FNum a => FNum (exp a)
  end.

(** [x ** 0.5] of a numpy float *)
Definition fsqrt (x : pyf) : pyf :=
  match x with
  | FNan | FNInf => FNan
  | FPInf => FPInf
  | FNum a => if Rlt_dec a 0 then FNan else FNum (sqrt a)
  end.

(** [np.isfinite(x)] *)
Definition fisfinite (x : pyf) : bool := match x with FNum _ => true | _ => false end.

(** [np.isinf(x)] *)
Definition fisinf (x : pyf) : bool := match x with FPInf | FNInf => true | _ => false end.

(** [x <= y] *)
Definition fleb (x y : pyf) : bool :=
  match x, y with
  | FNan, _ | _, FNan => false
  | _, _ => negb (fltb y x)
  end.

(** [np.sum] *)
Definition fsum (l : list pyf) : pyf := fold_right fadd (FNum 0) l.

(** [np.mean]: nan for an empty array *)
Definition fmean (l : list pyf) : pyf := fdiv (fsum l) (FNum (INR (length l))).

(** [np.argmax]: the first nan if there is one, else the first of the largest
    values; ValueError for an empty array *)
Fixpoint argmax_from (best : pyf) (bi i : nat) (l : list pyf) : nat :=
  match l with
  | [] => bi
  | x :: r =>
      if fisnan best then bi
      else if (fisnan x || fltb best x)%bool then argmax_from x i (S i) r
      else argmax_from best bi (S i) r
  end.
(** see above *)
Definition fargmax (l : list pyf) : res nat :=
  match l with
  | [] => Err ValueError
  | x :: r => Ok (argmax_from x 0 1 r)
  end.

Lemma fsum_num l : fsum (map FNum l) = FNum (fold_right Rplus 0 l).
Proof. induction l as [|x l IH]; cbn; [reflexivity|]. unfold fsum in IH. now rewrite IH. Qed.

Lemma fmean_num l : l <> [] ->
  fmean (map FNum l) = FNum (fold_right Rplus 0 l / INR (length l)).
Proof.
  intros N. unfold fmean. rewrite fsum_num, map_length. cbn [fdiv].
  destruct (Req_EM_T (INR (length l)) 0) as [E|E]; [|reflexivity].
  exfalso. apply N. destruct l; [reflexivity|]. apply not_0_INR in E; [tauto|]. discriminate.
Qed.

Lemma fdiv_num a b : b <> 0 -> fdiv (FNum a) (FNum b) = FNum (a / b).
Proof. intros H. cbn. destruct (Req_EM_T b 0); [contradiction|reflexivity]. Qed.

Lemma flog_num a : 0 < a -> flog (FNum a) = FNum (ln a).
Proof. intros H. cbn. destruct (Rlt_dec 0 a); [reflexivity|contradiction]. Qed.
