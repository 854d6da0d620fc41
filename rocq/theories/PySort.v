(** Python's [sorted] (used e.g. at /repo/qopen/core.py:94, 145, 1138).

    Simplification: timsort is modelled by a stable insertion sort; for a total
    preorder the result of a stable sort is unique. *)
From Coq Require Import List Bool Permutation Sorted Lia Arith.
Import ListNotations.

Section PySort.
  Context {A : Type} (leb : A -> A -> bool).

  (** insertion of an item before the first item that is not smaller *)
  Fixpoint insert (x : A) (l : list A) : list A :=
    match l with
    | [] => [x]
    | y :: l' => if leb x y then x :: l else y :: insert x l'
    end.

  (** [sorted(l)], core.py:94 *)
  Fixpoint pysort (l : list A) : list A :=
    match l with
    | [] => []
    | x :: l' => insert x (pysort l')
    end.

  Lemma insert_perm x l : Permutation (insert x l) (x :: l).
  Proof.
    induction l as [|y l IH]; cbn; [auto|]. destruct (leb x y); auto.
    etransitivity; [apply perm_skip, IH|]. apply perm_swap.
  Qed.

  Lemma pysort_perm l : Permutation (pysort l) l.
  Proof.
    induction l as [|x l IH]; cbn; [auto|]. etransitivity; [apply insert_perm|]. now apply perm_skip.
  Qed.

  Lemma pysort_in x l : In x (pysort l) <-> In x l.
  Proof.
    split; apply Permutation_in; [apply pysort_perm|apply Permutation_sym, pysort_perm].
  Qed.

  Lemma pysort_length l : length (pysort l) = length l.
  Proof. apply Permutation_length, pysort_perm. Qed.

  Hypothesis leb_total : forall x y, leb x y = true \/ leb y x = true.
  Hypothesis leb_trans : forall x y z, leb x y = true -> leb y z = true -> leb x z = true.

  Lemma insert_sorted x l :
    StronglySorted (fun a b => leb a b = true) l -> StronglySorted (fun a b => leb a b = true) (insert x l).
  Proof.
    induction l as [|y l IH]; cbn; intros H.
    - constructor; constructor.
    - inversion H as [|? ? H1 H2]; subst. destruct (leb x y) eqn:E.
      + constructor; [assumption|]. constructor; [assumption|].
        rewrite Forall_forall in *. intros z Hz. eauto.
      + constructor; [auto|]. rewrite Forall_forall in *. intros z Hz.
        apply (Permutation_in _ (insert_perm x l)) in Hz. destruct Hz as [<-|Hz]; [|auto].
        destruct (leb_total x y); congruence.
  Qed.

  Lemma pysort_sorted l : StronglySorted (fun a b => leb a b = true) (pysort l).
  Proof. induction l as [|x l IH]; cbn; [constructor|]. now apply insert_sorted. Qed.

  (** a sorted list is left alone *)
  Lemma pysort_id l : StronglySorted (fun a b => leb a b = true) l -> pysort l = l.
  Proof.
    induction 1 as [|x l H IH HF]; cbn; [reflexivity|]. rewrite IH.
    destruct l as [|y l]; cbn; [reflexivity|]. inversion HF; subst. now rewrite H2.
  Qed.

  (** stability: items that are equivalent to each other keep their order *)
  Lemma insert_filter x l p :
    (forall a b, p a = true -> p b = true -> leb a b = true) ->
    filter p (insert x l) = filter p (x :: l).
  Proof.
    intros Hp. induction l as [|y l IH]; cbn; [reflexivity|].
    destruct (leb x y) eqn:E; cbn; [reflexivity|]. rewrite IH. cbn.
    destruct (p x) eqn:Ex, (p y) eqn:Ey; try reflexivity.
    rewrite Hp in E by assumption. discriminate.
  Qed.

  Lemma pysort_stable l p :
    (forall a b, p a = true -> p b = true -> leb a b = true) ->
    filter p (pysort l) = filter p l.
  Proof.
    intros Hp. induction l as [|x l IH]; cbn; [reflexivity|].
    rewrite insert_filter by assumption. cbn. now rewrite IH.
  Qed.

  (** sorting depends only on the multiset if the order is antisymmetric *)
  Lemma sorted_unique l l' :
    (forall x y, leb x y = true -> leb y x = true -> x = y) ->
    StronglySorted (fun a b => leb a b = true) l -> StronglySorted (fun a b => leb a b = true) l' ->
    Permutation l l' -> l = l'.
  Proof.
    intros Anti H. revert l'. induction H as [|x l H IH HF]; intros l' H' P.
    - apply Permutation_nil in P. now subst.
    - destruct l' as [|y l']; [apply Permutation_sym, Permutation_nil in P; discriminate|].
      inversion H' as [|? ? H1 H2]; subst. rewrite Forall_forall in *.
      assert (x = y).
      { assert (Hx : In x (y :: l')) by (eapply Permutation_in; [exact P|now left]).
        assert (Hy : In y (x :: l)) by (eapply Permutation_in; [apply Permutation_sym, P|now left]).
        destruct Hx as [->|Hx]; [reflexivity|]. destruct Hy as [->|Hy]; [reflexivity|]. auto. }
      subst y. f_equal. apply IH; [assumption|]. now apply Permutation_cons_inv in P.
  Qed.

  Lemma pysort_perm_eq l l' :
    (forall x y, leb x y = true -> leb y x = true -> x = y) ->
    Permutation l l' -> pysort l = pysort l'.
  Proof.
    intros Anti P. apply sorted_unique; auto using pysort_sorted.
    etransitivity; [apply pysort_perm|]. etransitivity; [exact P|]. apply Permutation_sym, pysort_perm.
  Qed.
End PySort.
