(** Property C35: order of the written results (/repo/qopen/core.py:73-94). *)
From Coq Require Import String List Bool Arith Permutation Sorted Lia.
From Verif Require Import Base PySort SortModel SortProof.
Import ListNotations.
Open Scope string_scope.
Open Scope list_scope.

(** C35: known keys: same items, ordered by position in the documented order. *)
Theorem C35_sort_dict : forall V order (d : list (string * V)),
  (forall k, In k (map fst d) -> In k order) ->
  exists d', sort_dict order d = Ok d' /\ Permutation d' d /\
    StronglySorted (fun a b => exists i j,
      nth_error order i = Some a /\ nth_error order j = Some b /\ i <= j) (map fst d').
Proof. exact @sort_dict_ok. Qed.
Print Assumptions C35_sort_dict.

Example C35_sort_dict_ex :
  sort_dict DUMP_ORDER [("W", 1); ("M0", 2); ("R", 3)] = Ok [("M0", 2); ("W", 1); ("R", 3)].
Proof. reflexivity. Qed.

(** C35: ValueError exactly for dictionaries with an unknown key. *)
Theorem C35_unknown_key : forall V order (d : list (string * V)) k,
  In k (map fst d) -> ~ In k order -> sort_dict order d = Err ValueError.
Proof. exact @sort_dict_fails. Qed.
Print Assumptions C35_unknown_key.

Example C35_unknown_key_ex : sort_dict DUMP_ORDER [("W", 1); ("Q", 2)] = Err ValueError.
Proof. reflexivity. Qed.

Theorem C35_error_reason : forall V order (d : list (string * V)) e,
  sort_dict order d = Err e -> e = ValueError /\ exists k, In k (map fst d) /\ ~ In k order.
Proof. exact @sort_dict_err. Qed.
Print Assumptions C35_error_reason.

Example C35_error_reason_ex : sort_dict DUMP_ORDER [("Q", 2)] = Err ValueError.
Proof. reflexivity. Qed.

(** C35: the result does not depend on the order in which keys were inserted. *)
Theorem C35_order_free : forall V order (d1 d2 r1 : list (string * V)),
  NoDup order -> NoDup (map fst d1) -> Permutation d1 d2 ->
  sort_dict order d1 = Ok r1 -> sort_dict order d2 = Ok r1.
Proof. exact @sort_dict_order_free. Qed.
Print Assumptions C35_order_free.

Example C35_order_free_ex : NoDup DUMP_ORDER /\ Permutation [("W", 1); ("M0", 2)] [("M0", 2); ("W", 1)].
Proof.
  split; [|apply perm_swap]. unfold DUMP_ORDER.
  repeat (constructor; [cbn; intuition discriminate|]). constructor.
Qed.
