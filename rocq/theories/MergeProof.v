From Coq Require Import String List Bool Arith Lia Relation_Operators.
From Verif Require Import Base SiteModel SiteSpec.
Import ListNotations.
Open Scope list_scope.

Lemma inb_str x l : inb String.eqb x l = true <-> In x l.
Proof. apply (inb_In _ string_eqb_spec). Qed.

Lemma inb_str_false x l : inb String.eqb x l = false <-> ~ In x l.
Proof. rewrite <- inb_str. destruct (inb String.eqb x l); split; congruence. Qed.

Lemma overlap_true a b : overlap a b = true <-> exists x, In x a /\ In x b.
Proof.
  unfold overlap. rewrite existsb_exists. split; intros (x & H1 & H2); exists x; rewrite inb_str in *; auto.
Qed.

Lemma overlap_false a b : overlap a b = false <-> forall x, ~ (In x a /\ In x b).
Proof.
  split.
  - intros H x Hx. assert (overlap a b = true) by (apply overlap_true; eauto). congruence.
  - intros H. destruct (overlap a b) eqn:E; [|reflexivity]. apply overlap_true in E as (x & Hx). now apply H in Hx.
Qed.

Lemma set_update_In a : forall e x, In x (set_update e a) <-> In x e \/ In x a.
Proof.
  induction a as [|y a IH]; intros e x; cbn [set_update fold_left]; [cbn; tauto|].
  change (In x (set_update (if inb String.eqb y e then e else e ++ [y]) a) <-> In x e \/ In x (y :: a)).
  rewrite IH. destruct (inb String.eqb y e) eqn:E.
  - apply inb_str in E. cbn. split; [tauto|]. intros [H|[<-|H]]; auto.
  - rewrite in_app_iff. cbn. tauto.
Qed.

Lemma set_update_NoDup a : forall e, NoDup e -> NoDup (set_update e a).
Proof.
  induction a as [|y a IH]; intros e H; cbn [set_update fold_left]; [exact H|].
  apply IH. destruct (inb String.eqb y e) eqn:E; [exact H|]. apply inb_str_false in E.
  apply NoDup_rev in H. rewrite <- (rev_involutive (e ++ [y])). apply NoDup_rev. rewrite rev_unit.
  constructor; [|exact H]. now rewrite <- in_rev.
Qed.

(** ** absorb *)
Lemma absorb_cases n a :
  (absorb n a = n ++ [a] /\ forall e, In e n -> overlap a e = false) \/
  (exists p e s, n = p ++ e :: s /\ absorb n a = p ++ set_update e a :: s /\ overlap a e = true).
Proof.
  induction n as [|e n IH]; cbn [absorb].
  - left. split; [reflexivity|]. intros e [].
  - destruct (overlap a e) eqn:E.
    + right. exists [], e, n. auto.
    + destruct IH as [[IH1 IH2]|(p & e' & s & -> & H & Ho)].
      * left. rewrite IH1. split; [reflexivity|]. intros e' [<-|Hin]; auto.
      * right. exists (e :: p), e', s. rewrite H. auto.
Qed.

Lemma absorb_length n a : (List.length (absorb n a) <= S (List.length n))%nat.
Proof.
  destruct (absorb_cases n a) as [[-> _]|(p & e & s & -> & -> & _)];
  rewrite !app_length; cbn; lia.
Qed.

Lemma fold_absorb_length l : forall n, (List.length (fold_left absorb l n) <= List.length n + List.length l)%nat.
Proof.
  induction l as [|a l IH]; intros n; cbn; [lia|].
  eapply Nat.le_trans; [apply IH|]. assert (L := absorb_length n a). lia.
Qed.

Lemma fold_absorb_same l : forall n, List.length (fold_left absorb l n) = (List.length n + List.length l)%nat ->
  fold_left absorb l n = n ++ l /\ forall a, In a l -> forall e, In e n -> forall x, ~ (In x a /\ In x e).
Proof.
  induction l as [|a l IH]; intros n H; cbn in *.
  - split; [now rewrite app_nil_r|]. tauto.
  - assert (L := absorb_length n a). assert (L2 := fold_absorb_length l (absorb n a)).
    destruct (IH (absorb n a)) as [E D]; [lia|].
    destruct (absorb_cases n a) as [[E1 D1]|(p & e & s & -> & E1 & _)].
    2:{ rewrite E1 in *. rewrite !app_length in *. cbn in *. lia. }
    rewrite E1 in *. rewrite E, <- app_assoc. split; [reflexivity|].
    intros b [<-|Hb] e He x Hx.
    + specialize (D1 e He). rewrite overlap_false in D1. now apply D1 in Hx.
    + apply (D b Hb e) with x; auto. apply in_or_app. auto.
Qed.

Lemma fold_absorb_disjoint l : forall n, disjoint_sets n ->
  List.length (fold_left absorb l n) = (List.length n + List.length l)%nat -> disjoint_sets (n ++ l).
Proof.
  induction l as [|a l IH]; intros n Hd H; cbn in *; [now rewrite app_nil_r|].
  assert (L := absorb_length n a). assert (L2 := fold_absorb_length l (absorb n a)).
  destruct (absorb_cases n a) as [[E1 D1]|(p & e & s & -> & E1 & _)].
  2:{ rewrite E1 in *. rewrite !app_length in *. cbn in *. lia. }
  rewrite E1 in *. replace (n ++ a :: l) with ((n ++ [a]) ++ l) by now rewrite <- app_assoc.
  apply IH; [|rewrite app_length in *; cbn in *; lia].
  clear - Hd D1. unfold disjoint_sets in *. induction n as [|b n IHn]; cbn.
  - repeat constructor.
  - inversion Hd; subst. constructor.
    + apply Forall_app. split; [assumption|]. constructor; [|constructor].
      intros x Hx. assert (O := D1 b (or_introl eq_refl)). rewrite overlap_false in O. apply (O x). tauto.
    + apply IHn; auto. intros e He. apply D1. now right.
Qed.

(** ** connectivity is kept *)
Definition refines (A B : list (list string)) : Prop := forall s, In s A -> exists t, In t B /\ incl s t.
Definition tight (A B : list (list string)) : Prop :=
  forall t, In t B -> forall x y, In x t -> In y t -> chained A x y.

Lemma chained_sym A x y : chained A x y -> chained A y x.
Proof.
  induction 1 as [x y (s & H1 & H2 & H3)|x|x y z _ IH1 _ IH2].
  - apply rt_step. exists s. auto.
  - apply rt_refl.
  - eapply rt_trans; eauto.
Qed.

Lemma chained_mono A B x y : refines A B -> chained A x y -> chained B x y.
Proof.
  intros H. induction 1 as [x y (s & H1 & H2 & H3)|x|x y z _ IH1 _ IH2].
  - destruct (H s H1) as (t & Ht & Hi). apply rt_step. exists t. auto.
  - apply rt_refl.
  - eapply rt_trans; eauto.
Qed.

Lemma chained_tight A B x y : tight A B -> chained B x y -> chained A x y.
Proof.
  intros H. induction 1 as [x y (s & H1 & H2 & H3)|x|x y z _ IH1 _ IH2].
  - eauto.
  - apply rt_refl.
  - eapply rt_trans; eauto.
Qed.

Lemma incl_refines A B : incl A B -> refines A B.
Proof. intros H s Hs. exists s. split; [now apply H|apply incl_refl]. Qed.

Lemma fold_absorb_conn l : forall n p, refines p n -> tight p n ->
  refines (p ++ l) (fold_left absorb l n) /\ tight (p ++ l) (fold_left absorb l n).
Proof.
  induction l as [|a l IH]; intros n p R T; cbn [fold_left]; [now rewrite app_nil_r|].
  replace (p ++ a :: l) with ((p ++ [a]) ++ l) by now rewrite <- app_assoc.
  assert (M : forall x y, chained p x y -> chained (p ++ [a]) x y).
  { intros x y. apply chained_mono, incl_refines. apply incl_appl, incl_refl. }
  assert (St : forall x y, In x a -> In y a -> chained (p ++ [a]) x y).
  { intros x y Hx Hy. apply rt_step. exists a. rewrite in_app_iff. cbn. tauto. }
  apply IH.
  - intros s Hs. apply in_app_iff in Hs as [Hs|[<-|[]]].
    + destruct (R s Hs) as (t & Ht & Hi).
      destruct (absorb_cases n a) as [[-> _]|(q & e & u & -> & -> & _)].
      * exists t. rewrite in_app_iff. auto.
      * apply in_app_iff in Ht as [Ht|[<-|Ht]].
        -- exists t. rewrite in_app_iff. auto.
        -- exists (set_update e a). rewrite in_app_iff. split; [right; now left|].
           intros x Hx. apply set_update_In. left. now apply Hi.
        -- exists t. rewrite in_app_iff. split; [right; now right|assumption].
    + destruct (absorb_cases n a) as [[-> _]|(q & e & u & -> & -> & _)].
      * exists a. rewrite in_app_iff. cbn. split; [tauto|apply incl_refl].
      * exists (set_update e a). rewrite in_app_iff. split; [right; now left|].
        intros x Hx. apply set_update_In. now right.
  - intros t Ht x y Hx Hy.
    destruct (absorb_cases n a) as [[E _]|(q & e & u & En & E & O)]; rewrite E in Ht.
    + apply in_app_iff in Ht as [Ht|[<-|[]]]; eauto.
    + assert (Hn : In e n) by (rewrite En, in_app_iff; right; now left).
      apply in_app_iff in Ht as [Ht|[<-|Ht]].
      * apply M. apply (T t); auto. rewrite En, in_app_iff. auto.
      * apply overlap_true in O as (z & Hz1 & Hz2).
        assert (Cz : forall v, In v (set_update e a) -> chained (p ++ [a]) v z).
        { intros v Hv. apply set_update_In in Hv as [Hv|Hv]; eauto. }
        eapply rt_trans; [apply (Cz x Hx)|]. apply chained_sym, Cz, Hy.
      * apply M. apply (T t); auto. rewrite En, in_app_iff. right; now right.
Qed.

Lemma merge_pass_conn l : refines l (merge_pass l) /\ tight l (merge_pass l).
Proof.
  unfold merge_pass. change l with ([] ++ l) at 1 3.
  apply fold_absorb_conn; [intros s []|intros s []].
Qed.

Lemma fold_absorb_members l : forall n x,
  (exists s, In s (fold_left absorb l n) /\ In x s) <-> (exists s, In s n /\ In x s) \/ (exists s, In s l /\ In x s).
Proof.
  induction l as [|a l IH]; intros n x; cbn [fold_left].
  - split; [auto|]. intros [H|(s & [] & _)]. exact H.
  - rewrite IH.
    assert (E : (exists s, In s (absorb n a) /\ In x s) <-> (exists s, In s n /\ In x s) \/ In x a).
    { destruct (absorb_cases n a) as [[-> _]|(p & e & u & -> & -> & _)].
      - split.
        + intros (s & Hs & Hx). apply in_app_iff in Hs as [Hs|[<-|[]]]; eauto.
        + intros [(s & Hs & Hx)|Hx]; [exists s|exists a]; rewrite in_app_iff; cbn; auto.
      - split.
        + intros (s & Hs & Hx). apply in_app_iff in Hs as [Hs|[<-|Hs]].
          * left. exists s. rewrite in_app_iff. auto.
          * apply set_update_In in Hx as [Hx|Hx]; [|auto]. left. exists e. rewrite in_app_iff. cbn. auto.
          * left. exists s. rewrite in_app_iff. cbn. auto.
        + intros [(s & Hs & Hx)|Hx].
          * apply in_app_iff in Hs as [Hs|[<-|Hs]].
            -- exists s. rewrite in_app_iff. auto.
            -- exists (set_update e a). rewrite in_app_iff, set_update_In. cbn. auto.
            -- exists s. rewrite in_app_iff. cbn. auto.
          * exists (set_update e a). rewrite in_app_iff, set_update_In. cbn. auto. }
    rewrite E. cbn. split.
    + intros [[H|H]|(s & H1 & H2)]; eauto 6.
    + intros [H|(s & [<-|H1] & H2)]; eauto.
Qed.

Lemma fold_absorb_Forall (P : list string -> Prop) l :
  (forall e a, P e -> P (set_update e a)) -> forall n, Forall P n -> Forall P l -> Forall P (fold_left absorb l n).
Proof.
  intros HP. induction l as [|a l IH]; intros n Hn Hl; cbn; [exact Hn|]. inversion Hl; subst. apply IH; auto.
  destruct (absorb_cases n a) as [[-> _]|(p & e & u & -> & -> & _)].
  - apply Forall_app. auto.
  - apply Forall_app in Hn as [Hn1 Hn2]. inversion Hn2; subst. apply Forall_app. split; auto.
Qed.

(** ** the loop *)
Lemma merge_loop_spec rounds : forall news, (List.length news <= rounds)%nat ->
  forall l, l = merge_pass news -> disjoint_sets [] ->
  exists r, merge_loop rounds (List.length news) l = Some r /\ disjoint_sets r /\
    refines news r /\ tight news r /\
    (forall x, (exists s, In s r /\ In x s) <-> (exists s, In s news /\ In x s)) /\
    (forall P : list string -> Prop, (forall e a, P e -> P (set_update e a)) -> Forall P news -> Forall P r).
Proof.
  induction rounds as [|rounds IH]; intros news L l -> D0.
  - destruct news; [|cbn in L; lia]. exists []. cbn. split; [reflexivity|].
    split; [exact D0|]. split; [intros s []|]. split; [intros s []|]. split; [tauto|]. auto.
  - assert (Lp := fold_absorb_length news []). cbn [List.length plus] in Lp.
    destruct (merge_pass_conn news) as [Rp Tp].
    assert (Mp := fold_absorb_members news []).
    assert (Fp := fun P H => fold_absorb_Forall P news H [] (Forall_nil _)).
    change (fold_left absorb news []) with (merge_pass news) in *.
    cbn [merge_loop]. destruct (Nat.eqb_spec (List.length news) (List.length (merge_pass news))) as [E|E].
    + exists (merge_pass news). split; [reflexivity|].
      destruct (fold_absorb_same news []) as [Es _]; [cbn; symmetry; exact E|]. cbn [app] in Es.
      split; [|split; [exact Rp|split; [exact Tp|split]]].
      * unfold merge_pass. rewrite Es. apply (fold_absorb_disjoint news []); [exact D0|]. cbn. symmetry. exact E.
      * intros x. rewrite Mp. split; [intros [(s & [] & _)|H]; exact H|auto].
      * auto.
    + destruct (IH (merge_pass news)) with (l := merge_pass (merge_pass news)) as (r & Hr & D & R & T & M & F);
        [lia|reflexivity|exact D0|].
      exists r. split; [exact Hr|]. split; [exact D|]. split; [|split; [|split]].
      * intros s Hs. destruct (Rp s Hs) as (t & Ht & Hi). destruct (R t Ht) as (u & Hu & Hj).
        exists u. split; [assumption|]. eapply incl_tran; eauto.
      * intros t Ht x y Hx Hy. eapply chained_tight; [exact Tp|]. eapply T; eauto.
      * intros x. rewrite M, Mp. split; [intros [(s & [] & _)|H]; exact H|auto].
      * auto.
Qed.

Lemma disjoint_same r a b s : disjoint_sets r -> In s r -> In a s -> chained r a b -> In b s.
Proof.
  intros D Hs Ha H. revert Ha. induction H as [x y (t & H1 & H2 & H3)|x|x y z _ IH1 _ IH2]; auto.
  intros Hx. assert (s = t); [|now subst].
  clear - D Hs H1 H2 Hx. induction D as [|e l Hf D IH]; [destruct Hs|].
  rewrite Forall_forall in Hf. destruct Hs as [->|Hs], H1 as [->|H1]; auto.
  - exfalso. apply (Hf t H1 x). auto.
  - exfalso. apply (Hf s Hs x). auto.
Qed.

Lemma merge_sets_spec sets : exists r, merge_sets sets = Some r /\ disjoint_sets r /\
  (forall x, (exists s, In s r /\ In x s) <-> (exists s, In s sets /\ In x s)) /\
  (forall s a b, In s r -> In a s -> (In b s <-> chained sets a b)) /\
  (Forall (fun s => s <> []) sets -> Forall (fun s => s <> []) r) /\
  (Forall (@NoDup string) sets -> Forall (@NoDup string) r).
Proof.
  assert (D0 : disjoint_sets []) by constructor.
  unfold merge_sets. destruct sets as [|s0 sets].
  { exists []. cbn. split; [reflexivity|]. split; [exact D0|]. split; [tauto|]. split; [tauto|]. auto. }
  set (l := s0 :: sets).
  change (merge_loop (S (List.length l)) 0 l) with (merge_loop (List.length l) (List.length l) (merge_pass l)).
  destruct (merge_loop_spec (List.length l) l (le_n _) (merge_pass l) eq_refl D0) as (r & Hr & D & R & T & M & F).
  exists r. split; [exact Hr|]. split; [exact D|]. split; [exact M|]. split; [|split].
  - intros s a b Hs Ha. split; [intros Hb; eapply T; eauto|].
    intros Hc. eapply disjoint_same; eauto. eapply chained_mono; eauto.
  - apply F. intros e a He H. destruct e as [|x e]; [congruence|].
    assert (In x (set_update (x :: e) a)) by (apply set_update_In; left; now left). rewrite H in H0. destruct H0.
  - apply F. intros e a He. now apply set_update_NoDup.
Qed.

(** more rounds do not matter *)
Lemma merge_loop_more rounds : forall n l r, merge_loop rounds n l = Some r -> merge_loop (S rounds) n l = Some r.
Proof.
  induction rounds as [|k IH]; intros n l r H.
  - cbn in *. destruct (Nat.eqb n (List.length l)); congruence.
  - change (merge_loop (S (S k)) n l) with (if Nat.eqb n (List.length l) then Some l else merge_loop (S k) (List.length l) (merge_pass l)).
    change (merge_loop (S k) n l) with (if Nat.eqb n (List.length l) then Some l else merge_loop k (List.length l) (merge_pass l)) in H.
    destruct (Nat.eqb n (List.length l)); auto.
Qed.
