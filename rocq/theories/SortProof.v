From Coq Require Import String List Bool Arith Permutation Sorted Lia.
From Verif Require Import Base PySort SortModel.
Import ListNotations.
Open Scope list_scope.

Lemma index_of_ok k order : In k order -> exists i, index_of k order = Ok i /\ nth_error order i = Some k.
Proof.
  induction order as [|x l IH]; cbn; [tauto|]. intros H.
  destruct (String.eqb x k) eqn:E.
  - apply String.eqb_eq in E. subst. exists 0. auto.
  - destruct H as [->|H]; [rewrite String.eqb_refl in E; discriminate|].
    destruct (IH H) as (i & -> & Hi). cbn. exists (S i). auto.
Qed.

Lemma index_of_nth k order i : index_of k order = Ok i -> nth_error order i = Some k.
Proof.
  revert i. induction order as [|x l IH]; cbn; [discriminate|]. intros i.
  destruct (String.eqb x k) eqn:E.
  - intros [= <-]. apply String.eqb_eq in E. now subst.
  - destruct (index_of k l); cbn; [|discriminate]. intros [= <-]. cbn. auto.
Qed.

Lemma index_of_err k order e : index_of k order = Err e -> e = ValueError /\ ~ In k order.
Proof.
  induction order as [|x l IH]; cbn; [intros [= <-]; auto|].
  destruct (String.eqb x k) eqn:E; [discriminate|].
  destruct (index_of k l); cbn; [discriminate|]. intros [= ->].
  destruct (IH eq_refl) as [H1 H2]. split; [assumption|].
  intros [->|H]; [rewrite String.eqb_refl in E; discriminate|auto].
Qed.

Lemma keyed_ok {V} order (d : list (string * V)) :
  (forall k, In k (map fst d) -> In k order) ->
  exists keyed, mapM (fun kv => do i <- index_of (fst kv) order; Ok (i, kv)) d = Ok keyed /\
    map snd keyed = d /\ forall p, In p keyed -> nth_error order (fst p) = Some (fst (snd p)).
Proof.
  induction d as [|[k v] d IH]; cbn; intros H.
  - exists []. repeat split; auto. intros p [].
  - destruct (index_of_ok k order) as (i & Hi & Hn); [auto|]. rewrite Hi. cbn.
    destruct IH as (keyed & -> & H1 & H2); [auto|]. cbn.
    exists ((i, (k, v)) :: keyed). repeat split; cbn; [now rewrite H1|].
    intros p [<-|Hp]; auto.
Qed.

Definition position_sorted (order : list string) (ks : list string) :=
  StronglySorted (fun a b => exists i j, nth_error order i = Some a /\ nth_error order j = Some b /\ i <= j) ks.

Lemma sorted_map {A} (order : list string) (f : A -> string) (g : A -> nat) l :
  (forall p, In p l -> nth_error order (g p) = Some (f p)) ->
  StronglySorted (fun a b => Nat.leb (g a) (g b) = true) l ->
  position_sorted order (map f l).
Proof.
  intros H S. induction S as [|x l S IH HF]; cbn; constructor.
  - apply IH. intros; apply H; now right.
  - rewrite Forall_forall in *. intros y Hy. apply in_map_iff in Hy as (p & <- & Hp).
    exists (g x), (g p). repeat split; [apply H; now left|apply H; now right|].
    apply Nat.leb_le. now apply HF.
Qed.

Lemma sort_dict_ok {V} order (d : list (string * V)) :
  (forall k, In k (map fst d) -> In k order) ->
  exists d', sort_dict order d = Ok d' /\ Permutation d' d /\ position_sorted order (map fst d').
Proof.
  intros H. unfold sort_dict. destruct (keyed_ok order d H) as (keyed & -> & H1 & H2). cbn [bind].
  eexists. split; [reflexivity|]. split.
  - rewrite <- H1. apply Permutation_map, pysort_perm.
  - rewrite map_map. apply (sorted_map order (fun p => fst (snd p)) fst).
    + intros p Hp. apply H2. now apply pysort_in in Hp.
    + apply pysort_sorted.
      * intros x y. rewrite !Nat.leb_le. lia.
      * intros x y z. rewrite !Nat.leb_le. lia.
Qed.

Lemma sort_dict_err {V} order (d : list (string * V)) e :
  sort_dict order d = Err e -> e = ValueError /\ exists k, In k (map fst d) /\ ~ In k order.
Proof.
  unfold sort_dict.
  destruct (mapM _ d) as [keyed|e'] eqn:E; cbn; [discriminate|]. intros [= ->].
  revert E. induction d as [|[k v] d IH]; cbn; [discriminate|].
  destruct (index_of k order) eqn:Ei; cbn.
  - destruct (mapM _ d); cbn; [discriminate|]. intros [= ->].
    destruct (IH eq_refl) as (H1 & k' & H2 & H3). split; [assumption|]. exists k'. auto.
  - intros [= ->]. apply index_of_err in Ei as [H1 H2]. split; [assumption|]. exists k. auto.
Qed.

Lemma sort_dict_fails {V} order (d : list (string * V)) k :
  In k (map fst d) -> ~ In k order -> sort_dict order d = Err ValueError.
Proof.
  intros H1 H2. destruct (sort_dict order d) as [d'|e] eqn:E.
  - exfalso. unfold sort_dict in E. destruct (mapM _ d) as [keyed|e'] eqn:Em; [|discriminate]. clear E.
    revert keyed Em. induction d as [|[k' v] d IH]; cbn in *; [tauto|].
    intros keyed. destruct (index_of k' order) eqn:Ei; cbn; [|discriminate].
    destruct (mapM _ d) eqn:Em; cbn; [|discriminate]. intros _.
    destruct H1 as [->|H1].
    + apply index_of_nth in Ei. apply nth_error_In in Ei. contradiction.
    + now apply (IH H1 a0).
  - apply sort_dict_err in E as [-> _]. reflexivity.
Qed.

(** sorting does not depend on the order of the items and is idempotent *)
Lemma nodup_nth_inj (order : list string) i j k :
  NoDup order -> nth_error order i = Some k -> nth_error order j = Some k -> i = j.
Proof.
  intros ND Hi Hj. apply (proj1 (NoDup_nth_error order) ND); [|congruence].
  apply nth_error_Some. congruence.
Qed.

Lemma position_sorted_unique (order : list string) V (d d' : list (string * V)) :
  NoDup order -> NoDup (map fst d) -> Permutation d d' ->
  position_sorted order (map fst d) -> position_sorted order (map fst d') -> d = d'.
Proof.
  intros NO. revert d'. induction d as [|[k v] d IH]; intros d' ND P S S'.
  - apply Permutation_nil in P. now subst.
  - destruct d' as [|[k' v'] d']; [apply Permutation_sym, Permutation_nil in P; discriminate|].
    cbn in *. inversion S as [|? ? S1 F]; subst. inversion S' as [|? ? S1' F']; subst.
    inversion ND as [|? ? NI ND']; subst. rewrite Forall_forall in *.
    assert (Ek : (k, v) = (k', v')).
    { assert (H1 : In (k, v) ((k', v') :: d')) by (eapply Permutation_in; [exact P|now left]).
      assert (H2 : In (k', v') ((k, v) :: d)) by (eapply Permutation_in; [apply Permutation_sym, P|now left]).
      destruct H1 as [<-|H1]; [reflexivity|]. destruct H2 as [<-|H2]; [reflexivity|]. exfalso.
      apply (in_map fst) in H1 as H1'. apply (in_map fst) in H2 as H2'. cbn in *.
      destruct (F k' H2') as (i & j & Hi & Hj & L). destruct (F' k H1') as (i' & j' & Hi' & Hj' & L').
      assert (i = j') by exact (nodup_nth_inj order i j' k NO Hi Hj'). assert (j = i') by exact (nodup_nth_inj order j i' k' NO Hj Hi').
      assert (i = j) by lia. subst. assert (k = k') by congruence. subst. contradiction. }
    injection Ek as -> ->. f_equal. apply IH; auto. now apply Permutation_cons_inv in P.
Qed.

Lemma sort_dict_order_free {V} order (d1 d2 r1 : list (string * V)) :
  NoDup order -> NoDup (map fst d1) -> Permutation d1 d2 ->
  sort_dict order d1 = Ok r1 -> sort_dict order d2 = Ok r1.
Proof.
  intros NO ND P H.
  assert (Hk : forall k, In k (map fst d1) -> In k order).
  { intros k Hk. destruct (in_dec string_dec k order); [assumption|].
    rewrite (sort_dict_fails order d1 k) in H by assumption. discriminate. }
  destruct (sort_dict_ok order d1 Hk) as (d' & E & P' & S). rewrite H in E. injection E as <-.
  destruct (sort_dict_ok order d2) as (d2' & E2 & P2 & S2).
  { intros k Hk2. apply Hk. apply (Permutation_in _ (Permutation_map fst (Permutation_sym P))). assumption. }
  rewrite E2. f_equal. symmetry. apply (position_sorted_unique order V); auto.
  - apply (Permutation_NoDup (Permutation_map fst (Permutation_sym P'))). assumption.
  - etransitivity; [exact P'|]. etransitivity; [exact P|]. now apply Permutation_sym.
Qed.
