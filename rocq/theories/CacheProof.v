From Coq Require Import String Ascii List Bool NArith ZArith Decimal DecimalZ Lia Arith.
From Verif Require Import Base CacheModel CacheSpec.
Import ListNotations.
Open Scope list_scope.

(** ** the decorator *)
Section CacheP.
Context {World Arg Key Val : Type}.
Variable keqb : Key -> Key -> bool.
Variable keqb_iff : forall a b, keqb a b = true <-> a = b.

Let keqb_spec a b : reflect (a = b) (keqb a b).
Proof. destruct (keqb a b) eqn:E; constructor; [now apply keqb_iff|]. intros H. apply keqb_iff in H. congruence. Qed.
Variable key : Arg -> Key.

Lemma call_cases (f : World -> Arg -> World * res Val) c w a :
  match dget keqb c (key a) with
  | Some v => cached_call keqb key f (c, w) a = ((c, w), Ok v)
  | None =>
      match f w a with
      | (w', Err e) => cached_call keqb key f (c, w) a = ((c, w'), Err e)
      | (w', Ok v) => cached_call keqb key f (c, w) a = ((dset keqb c (key a) v, w'), Ok v)
      end
  end.
Proof.
  unfold cached_call, dmem. destruct (dget keqb c (key a)) eqn:E; [reflexivity|].
  destruct (f w a) as [w' [v|e]]; [|reflexivity].
  rewrite (dget_dset_eq keqb keqb_iff). reflexivity.
Qed.

Lemma calls_transparent (f : World -> Arg -> World * res Val) (g : Arg -> res Val) :
  ignores_world f g -> (forall a b, key a = key b -> g a = g b) ->
  forall l w, snd (cached_calls keqb key f ([], w) l) = map g l.
Proof.
  intros Hf Hk.
  assert (G : forall l c w, (forall a v, dget keqb c (key a) = Some v -> g a = Ok v) ->
    snd (cached_calls keqb key f (c, w) l) = map g l).
  { induction l as [|a l IH]; intros c w Hc; [reflexivity|]. cbn [cached_calls map].
    assert (C := call_cases f c w a). destruct (dget keqb c (key a)) as [v|] eqn:E.
    - rewrite C. specialize (IH c w Hc). destruct (cached_calls keqb key f (c, w) l). cbn in *.
      rewrite (Hc _ _ E). now rewrite IH.
    - assert (Hw := Hf w a). destruct (f w a) as [w' [v|e]]; cbn in Hw; rewrite C.
      + assert (Hc' : forall b u, dget keqb (dset keqb c (key a) v) (key b) = Some u -> g b = Ok u).
        { intros b u Hb. destruct (keqb_spec (key b) (key a)) as [Eq|Ne].
          - rewrite Eq, (dget_dset_eq keqb keqb_iff) in Hb. rewrite (Hk b a Eq), <- Hw. congruence.
          - rewrite (dget_dset_neq keqb keqb_iff) in Hb by auto. now apply Hc. }
        specialize (IH _ w' Hc'). destruct (cached_calls keqb key f (dset keqb c (key a) v, w') l). cbn in *. now rewrite IH, Hw.
      + specialize (IH c w' Hc). destruct (cached_calls keqb key f (c, w') l). cbn in *. now rewrite IH, Hw. }
  intros l w. apply G. discriminate.
Qed.

Lemma calls_stable (f : World -> Arg -> World * res Val) l : forall c w k v, dget keqb c k = Some v ->
  forall j a, nth_error l j = Some a -> key a = k ->
    nth_error (snd (cached_calls keqb key f (c, w) l)) j = Some (Ok v).
Proof.
  induction l as [|b l IH]; intros c w k v Hc j a Hj Hk; [now destruct j|].
  cbn [cached_calls]. assert (C := call_cases f c w b).
  destruct (dget keqb c (key b)) as [u|] eqn:E.
  - rewrite C. specialize (IH c w k v Hc). destruct (cached_calls keqb key f (c, w) l) as [s os]. cbn in *.
    destruct j as [|j]; cbn in *; [|eapply IH; eauto]. injection Hj as ->. congruence.
  - assert (Ne : key b <> k) by congruence.
    destruct (f w b) as [w' [u|e]]; rewrite C.
    + assert (Hc' : dget keqb (dset keqb c (key b) u) k = Some v) by (rewrite (dget_dset_neq keqb keqb_iff); auto).
      specialize (IH _ w' k v Hc'). destruct (cached_calls keqb key f (dset keqb c (key b) u, w') l) as [s os]. cbn in *.
      destruct j as [|j]; cbn in *; [|eapply IH; eauto]. injection Hj as ->. congruence.
    + specialize (IH c w' k v Hc). destruct (cached_calls keqb key f (c, w') l) as [s os]. cbn in *.
      destruct j as [|j]; cbn in *; [|eapply IH; eauto]. injection Hj as ->. congruence.
Qed.

Lemma call_remembers (f : World -> Arg -> World * res Val) s a v s' :
  cached_call keqb key f s a = (s', Ok v) -> dget keqb (fst s') (key a) = Some v.
Proof.
  destruct s as [c w]. assert (C := call_cases f c w a). intros H.
  destruct (dget keqb c (key a)) as [u|] eqn:E; [rewrite C in H; injection H as <- <-; exact E|].
  destruct (f w a) as [w' [u|e]]; rewrite C in H; [|discriminate]. injection H as <- <-. cbn.
  apply (dget_dset_eq keqb keqb_iff).
Qed.

Lemma calls_sticky (f : World -> Arg -> World * res Val) l : forall s i j a b v,
  (i < j)%nat -> nth_error l i = Some a -> nth_error l j = Some b -> key a = key b ->
  nth_error (snd (cached_calls keqb key f s l)) i = Some (Ok v) ->
  nth_error (snd (cached_calls keqb key f s l)) j = Some (Ok v).
Proof.
  induction l as [|x l IH]; intros s i j a b v Hij Ha Hb Hk Hv; [now destruct i|].
  cbn [cached_calls] in *. destruct (cached_call keqb key f s x) as [[c1 w1] o] eqn:E.
  destruct j as [|j]; [lia|]. destruct i as [|i].
  - injection Ha as ->. assert (S := calls_stable f l c1 w1 (key a) v).
    destruct (cached_calls keqb key f (c1, w1) l) as [s2 os] eqn:E2. cbn in *.
    injection Hv as ->. apply call_remembers in E. cbn in E. eapply S; eauto.
  - specialize (IH (c1, w1) i j a b v).
    destruct (cached_calls keqb key f (c1, w1) l) as [s2 os]. cbn in *. apply IH; auto. lia.
Qed.

Lemma call_error (f : World -> Arg -> World * res Val) c w a s' e :
  cached_call keqb key f (c, w) a = (s', Err e) ->
  fst s' = c /\ snd (f w a) = Err e /\ dget keqb c (key a) = None.
Proof.
  intros H. assert (C := call_cases f c w a).
  destruct (dget keqb c (key a)) as [u|] eqn:E; [rewrite C in H; discriminate|].
  destruct (f w a) as [w' [u|e']]; rewrite C in H; [discriminate|]. injection H as <- <-. auto.
Qed.
End CacheP.

Section Once.
Context {Arg Key Val : Type}.
Variable keqb : Key -> Key -> bool.
Variable keqb_iff : forall a b, keqb a b = true <-> a = b.

Let keqb_spec a b : reflect (a = b) (keqb a b).
Proof. destruct (keqb a b) eqn:E; constructor; [now apply keqb_iff|]. intros H. apply keqb_iff in H. congruence. Qed.
Variable key : Arg -> Key.

Lemma successes_app k (w w' : list (Arg * res Val)) :
  successes keqb key k (w ++ w') = (successes keqb key k w + successes keqb key k w')%nat.
Proof. unfold successes. now rewrite filter_app, app_length. Qed.

Lemma calls_once (g : nat -> Arg -> res Val) l k :
  (successes keqb key k (snd (fst (cached_calls keqb key (logging g) ([], []) l))) <= 1)%nat.
Proof.
  assert (G : forall l c w,
    (forall k, successes keqb key k w = if dmem keqb c k then 1%nat else 0%nat) ->
    (successes keqb key k (snd (fst (cached_calls keqb key (logging g) (c, w) l))) <= 1)%nat).
  { clear l. induction l as [|a l IH]; intros c w H.
    - cbn [cached_calls fst snd]. rewrite H. destruct (dmem keqb c k); lia.
    - cbn [cached_calls]. assert (C := call_cases keqb keqb_iff key (logging g) c w a).
      destruct (dget keqb c (key a)) as [v|] eqn:E.
      + rewrite C. specialize (IH c w H). now destruct (cached_calls keqb key (logging g) (c, w) l).
      + assert (L : logging g w a = (w ++ [(a, g (List.length w) a)], g (List.length w) a)) by reflexivity.
        rewrite L in C. clear L.
        destruct (g (List.length w) a) as [v|e] eqn:Eg; rewrite C; clear C.
        * assert (H' : forall k', successes keqb key k' (w ++ [(a, Ok v)]) = if dmem keqb (dset keqb c (key a) v) k' then 1%nat else 0%nat).
          { intros k'. rewrite successes_app, H. unfold successes. cbn. unfold dmem.
            destruct (keqb_spec (key a) k') as [<-|Ne]; cbn.
            - rewrite E, (dget_dset_eq keqb keqb_iff). reflexivity.
            - rewrite (dget_dset_neq keqb keqb_iff) by auto. destruct (dget keqb c k'); lia. }
          specialize (IH _ _ H'). now destruct (cached_calls keqb key (logging g) (dset keqb c (key a) v, w ++ [(a, Ok v)]) l).
        * assert (H' : forall k', successes keqb key k' (w ++ [(a, Err e)]) = if dmem keqb c k' then 1%nat else 0%nat).
          { intros k'. rewrite successes_app, H. unfold successes. cbn.
            rewrite andb_false_r. cbn. lia. }
          specialize (IH _ _ H'). now destruct (cached_calls keqb key (logging g) (c, w ++ [(a, Err e)]) l). }
  apply G. reflexivity.
Qed.
End Once.
