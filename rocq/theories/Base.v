(** Python primitives shared by the models.  Nothing here is specific to
    qopen; the comments name the Python construct that is mirrored and one
    place in /repo where it is used. *)
From Coq Require Import String List ZArith Bool Lia.
Import ListNotations.
Open Scope string_scope.
Open Scope list_scope.

(** Exceptions raised by the modelled code (e.g. /repo/qopen/core.py:85-90
    ParseError and SkipError, built-in exceptions elsewhere).
    Simplification: only the class of an exception is kept, not its message. *)
Inductive exn : Set :=
| ValueError | TypeError | KeyError | IndexError | AssertionError
| AttributeError | ZeroDivisionError | NotImplementedError
| UnboundLocalError | NameError | ImportError | SkipError | ParseError
| KeyboardInterrupt | SystemExit | OtherError.

(** Result of a Python call: a value or a raised exception
    (used for all functions of /repo/qopen that can raise). *)
Inductive res (A : Type) : Type :=
| Ok (a : A)
| Err (e : exn).
Arguments Ok {A} a.
Arguments Err {A} e.

(** Sequencing of Python statements: an exception aborts the rest. *)
Definition bind {A B} (x : res A) (f : A -> res B) : res B :=
  match x with Ok a => f a | Err e => Err e end.

Notation "'do' x <- a ; b" := (bind a (fun x => b))
  (at level 200, x pattern, a at level 100, b at level 200, right associativity).

(** A Python loop which collects one value per item and stops at the first
    exception (list comprehension, e.g. /repo/qopen/core.py:1318). *)
Fixpoint mapM {A B} (f : A -> res B) (l : list A) : res (list B) :=
  match l with
  | [] => Ok []
  | a :: l' => do b <- f a; do bs <- mapM f l'; Ok (b :: bs)
  end.

(** Insertion ordered Python dictionaries with keys compared by [eqb]
    (all dictionaries of /repo/qopen; OrderedDict and dict alike). *)
Section Dict.
  Context {K V : Type} (eqb : K -> K -> bool).

  (** [d.get(k)]; [d[k]] raises KeyError in the None case. *)
  Fixpoint dget (d : list (K * V)) (k : K) : option V :=
    match d with
    | [] => None
    | (k', v) :: d' => if eqb k k' then Some v else dget d' k
    end.

  (** [k in d] *)
  Definition dmem (d : list (K * V)) (k : K) : bool :=
    match dget d k with Some _ => true | None => false end.

  (** [d[k] = v]: an existing key keeps its position. *)
  Fixpoint dset (d : list (K * V)) (k : K) (v : V) : list (K * V) :=
    match d with
    | [] => [(k, v)]
    | (k', v') :: d' =>
        if eqb k k' then (k', v) :: d' else (k', v') :: dset d' k v
    end.

  (** [d.pop(k, None)] (keys of a dictionary are unique, the first is removed) *)
  Fixpoint dpop (d : list (K * V)) (k : K) : list (K * V) :=
    match d with
    | [] => []
    | (k', v') :: d' => if eqb k k' then d' else (k', v') :: dpop d' k
    end.

  (** [d.setdefault(k, v)] *)
  Definition dsetdefault (d : list (K * V)) (k : K) (v : V) : list (K * V) :=
    if dmem d k then d else dset d k v.

  (** [d.update(d2)] *)
  Definition dupdate (d d2 : list (K * V)) : list (K * V) :=
    fold_left (fun d kv => dset d (fst kv) (snd kv)) d2 d.

  (** [dict(pairs)]: later values win, the position of the first stays. *)
  Definition dict_of (l : list (K * V)) : list (K * V) := dupdate [] l.

  (** [d.keys()] *)
  Definition dkeys (d : list (K * V)) : list K := map fst d.
End Dict.

(** [x in list] for a decidable equality (Python list membership). *)
Definition inb {A} (eqb : A -> A -> bool) (x : A) (l : list A) : bool :=
  existsb (eqb x) l.

Section DictFacts.
  Context {K V : Type} (eqb : K -> K -> bool).
  Hypothesis eqb_spec : forall a b, eqb a b = true <-> a = b.

  Lemma eqb_refl_ a : eqb a a = true.
  Proof. now apply eqb_spec. Qed.

  Lemma eqb_neq a b : eqb a b = false <-> a <> b.
  Proof.
    destruct (eqb a b) eqn:E.
    - split; intros H; [discriminate|]. apply eqb_spec in E. congruence.
    - split; intros H; [|reflexivity]. intros ->. rewrite eqb_refl_ in E. discriminate.
  Qed.

  Lemma dget_dset_eq (d : list (K * V)) k v : dget eqb (dset eqb d k v) k = Some v.
  Proof.
    induction d as [|[k' v'] d IH]; cbn.
    - now rewrite eqb_refl_.
    - destruct (eqb k k') eqn:E; cbn; rewrite E; auto.
  Qed.

  Lemma dget_dset_neq (d : list (K * V)) k k2 v :
    k2 <> k -> dget eqb (dset eqb d k v) k2 = dget eqb d k2.
  Proof.
    intros N. induction d as [|[k' v'] d IH]; cbn.
    - apply eqb_neq in N. now rewrite N.
    - destruct (eqb k k') eqn:E; cbn.
      + apply eqb_spec in E. subst k'. apply eqb_neq in N. now rewrite N.
      + destruct (eqb k2 k'); auto.
  Qed.

  Lemma dget_In (d : list (K * V)) k v : dget eqb d k = Some v -> In (k, v) d.
  Proof.
    induction d as [|[k' v'] d IH]; cbn; [discriminate|].
    destruct (eqb k k') eqn:E.
    - intros [= ->]. apply eqb_spec in E. subst. now left.
    - intros H. right. auto.
  Qed.

  Lemma dget_None (d : list (K * V)) k : dget eqb d k = None <-> ~ In k (map fst d).
  Proof.
    induction d as [|[k' v'] d IH]; cbn.
    - tauto.
    - destruct (eqb k k') eqn:E.
      + apply eqb_spec in E. subst. split; [discriminate|intros H; exfalso; auto].
      + apply eqb_neq in E. rewrite IH. intuition congruence.
  Qed.

  Lemma dget_nodup (d : list (K * V)) k v :
    NoDup (map fst d) -> In (k, v) d -> dget eqb d k = Some v.
  Proof.
    induction d as [|[k' v'] d IH]; cbn; [tauto|].
    intros ND [H|H].
    - injection H as -> ->. now rewrite eqb_refl_.
    - inversion ND as [|? ? NI ND']; subst.
      destruct (eqb k k') eqn:E.
      + apply eqb_spec in E. subst. exfalso. apply NI.
        change k' with (fst (k', v)). now apply in_map.
      + auto.
  Qed.

  Lemma dset_keys (d : list (K * V)) k v :
    map fst (dset eqb d k v) =
    if dmem eqb d k then map fst d else map fst d ++ [k].
  Proof.
    unfold dmem. induction d as [|[k' v'] d IH]; cbn; [reflexivity|].
    destruct (eqb k k') eqn:E; cbn; [reflexivity|].
    rewrite IH. destruct (dget eqb d k); reflexivity.
  Qed.

  Lemma dset_in_keys (d : list (K * V)) k v x :
    In x (map fst (dset eqb d k v)) <-> x = k \/ In x (map fst d).
  Proof.
    rewrite dset_keys. destruct (dmem eqb d k) eqn:E.
    - unfold dmem in E. destruct (dget eqb d k) eqn:G; [|discriminate].
      split; [auto|]. intros [->|H]; auto.
      apply dget_In in G. change k with (fst (k, v0)). now apply in_map.
    - rewrite in_app_iff. cbn. intuition.
  Qed.

  Lemma dset_nodup (d : list (K * V)) k v :
    NoDup (map fst d) -> NoDup (map fst (dset eqb d k v)).
  Proof.
    intros ND. rewrite dset_keys. destruct (dmem eqb d k) eqn:E; [assumption|].
    unfold dmem in E. destruct (dget eqb d k) eqn:G; [discriminate|].
    apply dget_None in G.
    apply NoDup_rev in ND. rewrite <- (rev_involutive (_ ++ _)). apply NoDup_rev.
    rewrite rev_app_distr. cbn. constructor; [|assumption].
    now rewrite <- in_rev.
  Qed.

  Lemma dget_dpop_eq (d : list (K * V)) k :
    NoDup (map fst d) -> dget eqb (dpop eqb d k) k = None.
  Proof.
    induction d as [|[k' v'] d IH]; cbn; [reflexivity|].
    intros ND. inversion ND as [|? ? NI ND']; subst.
    destruct (eqb k k') eqn:E.
    - apply eqb_spec in E. subst. now apply dget_None.
    - cbn. rewrite E. auto.
  Qed.

  Lemma dget_dpop_neq (d : list (K * V)) k k2 :
    k2 <> k -> dget eqb (dpop eqb d k) k2 = dget eqb d k2.
  Proof.
    intros N. induction d as [|[k' v'] d IH]; cbn; [reflexivity|].
    destruct (eqb k k') eqn:E.
    - apply eqb_spec in E. subst. apply eqb_neq in N. now rewrite N.
    - cbn. destruct (eqb k2 k'); auto.
  Qed.

  Lemma dpop_keys_incl (d : list (K * V)) k x :
    In x (map fst (dpop eqb d k)) -> In x (map fst d).
  Proof.
    induction d as [|[k' v'] d IH]; cbn; [tauto|].
    destruct (eqb k k'); cbn; intuition.
  Qed.

  Lemma dpop_nodup (d : list (K * V)) k :
    NoDup (map fst d) -> NoDup (map fst (dpop eqb d k)).
  Proof.
    induction d as [|[k' v'] d IH]; cbn; [auto|].
    intros ND. inversion ND as [|? ? NI ND']; subst.
    destruct (eqb k k'); cbn; [assumption|].
    constructor; auto. intros H. apply NI. eapply dpop_keys_incl; eauto.
  Qed.

  Lemma dupdate_nodup (d2 d : list (K * V)) :
    NoDup (map fst d) -> NoDup (map fst (dupdate eqb d d2)).
  Proof.
    revert d. induction d2 as [|[k v] d2 IH]; cbn; auto.
    intros d ND. apply IH. now apply dset_nodup.
  Qed.

  Lemma dupdate_get_other (d2 d : list (K * V)) k :
    ~ In k (map fst d2) -> dget eqb (dupdate eqb d d2) k = dget eqb d k.
  Proof.
    revert d. induction d2 as [|[k' v] d2 IH]; cbn; auto.
    intros d NI. change (dget eqb (dupdate eqb (dset eqb d k' v) d2) k = dget eqb d k).
    rewrite IH by tauto. apply dget_dset_neq. intuition.
  Qed.

  Lemma dupdate_get_in (d2 d : list (K * V)) k v :
    NoDup (map fst d2) -> In (k, v) d2 -> dget eqb (dupdate eqb d d2) k = Some v.
  Proof.
    revert d. induction d2 as [|[k' v'] d2 IH]; cbn; [tauto|].
    intros d ND [H|H]; inversion ND as [|? ? NI ND']; subst.
    - injection H as -> ->. change (dget eqb (dupdate eqb (dset eqb d k v) d2) k = Some v).
      rewrite dupdate_get_other by assumption. apply dget_dset_eq.
    - now apply IH.
  Qed.
End DictFacts.

Lemma string_eqb_spec a b : String.eqb a b = true <-> a = b.
Proof. apply String.eqb_eq. Qed.

Lemma inb_In {A} (eqb : A -> A -> bool)
  (H : forall a b, eqb a b = true <-> a = b) x l :
  inb eqb x l = true <-> In x l.
Proof.
  unfold inb. rewrite existsb_exists. split.
  - intros (y & Hy & E). apply H in E. now subst.
  - intros Hy. exists x. split; [assumption|]. now apply H.
Qed.

(** evaluates comparisons of string literals *)
Ltac streq := repeat match goal with
  |- context [String.eqb ?a ?b] =>
    let v := eval vm_compute in (String.eqb a b) in
    match v with true => idtac | false => idtac end;
    change (String.eqb a b) with v
  end.
Ltac streq_in H := repeat match type of H with
  context [String.eqb ?a ?b] =>
    let v := eval vm_compute in (String.eqb a b) in
    match v with true => idtac | false => idtac end;
    change (String.eqb a b) with v in H; cbv iota in H
  end.
