(** Python floats: the special values matter for control flow, finite values
    are real numbers (rounding and overflow are not modelled). *)
From Coq Require Import List Bool Reals Lra.
Import ListNotations.
Open Scope R_scope.

(** A Python/numpy float as used for g0, b, W, R, error in /repo/qopen/core.py
    and as data of /repo/qopen/util.py:65-147. *)
Inductive pyf : Type :=
| FNan
| FPInf
| FNInf
| FNum (x : R).

(** the comparison of reals as a boolean *)
Definition rltb (x y : R) : bool := if Rlt_dec x y then true else false.

(** IEEE [x < y]: false if one side is nan (used at core.py:1019-1024). *)
Definition fltb (x y : pyf) : bool :=
  match x, y with
  | FNan, _ | _, FNan => false
  | FNInf, FNInf => false
  | FNInf, _ => true
  | _, FNInf => false
  | FPInf, _ => false
  | _, FPInf => true
  | FNum a, FNum b => rltb a b
  end.

(** [numpy.isnan(x)] (e.g. site.py:73) *)
Definition fisnan (x : pyf) : bool := match x with FNan => true | _ => false end.

Lemma rltb_true x y : rltb x y = true <-> x < y.
Proof. unfold rltb. destruct (Rlt_dec x y); split; intros; auto; congruence. Qed.

Lemma rltb_false x y : rltb x y = false <-> y <= x.
Proof. unfold rltb. destruct (Rlt_dec x y); split; intros; try lra; congruence. Qed.
