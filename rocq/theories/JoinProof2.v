(** The loop joining areas: invariant. *)
From Coq Require Import String List Bool Reals Lra Lia Arith Relations.
From Verif Require Import Base JoinModel JoinSpec JoinProof.
Import ListNotations.
Open Scope string_scope.
Open Scope list_scope.
Open Scope R_scope.

Lemma dget_key {K V} (eqb : K -> K -> bool) (S : forall a b, eqb a b = true <-> a = b) (d : list (K * V)) k :
  In k (map fst d) <-> exists v, dget eqb d k = Some v.
Proof.
  destruct (dget eqb d k) eqn:E.
  - split; [eauto|]. intros _. apply (dget_In _ S) in E. apply in_map with (f := fst) in E. exact E.
  - apply (dget_None _ S) in E. split; [tauto|]. intros [v H]. discriminate.
Qed.

Lemma dpop_keys {K V} (eqb : K -> K -> bool) (S : forall a b, eqb a b = true <-> a = b) (d : list (K * V)) k x :
  NoDup (map fst d) -> (In x (map fst (dpop eqb d k)) <-> In x (map fst d) /\ x <> k).
Proof.
  intros ND. assert (x = k \/ x <> k) as [->|N].
  { destruct (eqb x k) eqn:E; [left; now apply S|right]. intros ->. now rewrite (proj2 (S k k) eq_refl) in E. }
  - split; [|tauto]. intros I. apply (dget_key _ S) in I. rewrite (dget_dpop_eq _ S) in I by assumption. destruct I; discriminate.
  - rewrite !(dget_key _ S), (dget_dpop_neq _ S) by assumption. tauto.
Qed.

Section Loop.
  Variable flip : string * string -> bool.
  Variable areas : list (string * list string).
  Variable crn : string -> string -> Prop.
  Variable km : string -> string -> R -> Prop.
  Variable m : R.
  Hypothesis km_sym : forall s t d, km s t d -> km t s d.

  Definition nearby (a b : string) : Prop := exists s t d, crn a s /\ crn b t /\ km s t d /\ d <= m.
  Definition chain := clos_refl_sym_trans string nearby.

  Definition link_ (grp : string -> string -> Prop) c d (v : R * (string * string)) : Prop :=
    exists a b, grp c a /\ grp d b /\ km (fst (snd v)) (snd (snd v)) (fst v) /\
      (crn a (fst (snd v)) /\ crn b (snd (snd v)) \/ crn a (snd (snd v)) /\ crn b (fst (snd v))).
  Definition low_ (grp : string -> string -> Prop) c d (v : R * (string * string)) : Prop :=
    forall a b x y e, grp c a -> grp d b -> crn a x -> crn b y -> km x y e -> fst v <= e.

  Record inv (s : state) (grp : string -> string -> Prop) : Prop := {
    v_nodup : NoDup (map fst (s_areas s));
    v_names : forall c, In c (map fst (s_areas s)) -> In c (map fst areas) /\ grp c c;
    v_grp : forall c a, grp c a -> In c (map fst (s_areas s)) /\ In a (map fst areas);
    v_all : forall a, In a (map fst areas) -> exists c, grp c a;
    v_one : forall c d a, grp c a -> grp d a -> c = d;
    v_sets : forall c l, In (c, l) (s_areas s) -> forall x, In x l <-> exists a sa, In (a, sa) areas /\ grp c a /\ In x sa;
    v_dnodup : NoDup (map fst (s_distance s));
    v_dist : forall c d, In c (map fst (s_areas s)) -> In d (map fst (s_areas s)) -> c <> d ->
      exists v, dget fset_eqb (s_distance s) (fset c d) = Some v /\ link_ grp c d v /\ low_ grp c d v;
    v_keys : forall k v, In (k, v) (s_distance s) ->
      exists c d, In c (map fst (s_areas s)) /\ In d (map fst (s_areas s)) /\ c <> d /\ k = fset c d;
    v_chain : forall c a, grp c a -> chain c a;
    v_near : forall x y, dget String.eqb (s_near s) x = Some y ->
      exists a b d, a <> b /\ chain a b /\ crn a x /\ crn b y /\ km x y d /\ d <= m;
    v_some : forall c a b, grp c a -> grp c b -> a <> b -> exists x y, crn a x /\ dget String.eqb (s_near s) x = Some y }.

  Lemma link_sym grp c d v : link_ grp c d v -> link_ grp d c v.
  Proof. intros (a & b & A & B & K & C). exists b, a. tauto. Qed.
  Lemma low_sym grp c d v : low_ grp c d v -> low_ grp d c v.
  Proof. intros L a b x y e A B X Y K. apply (L b a y x); auto. Qed.

  Lemma near_set (n : list (string * string)) x y z w :
    dget String.eqb (dset String.eqb (dset String.eqb n x y) y x) z = Some w ->
    (z = x /\ w = y) \/ (z = y /\ w = x) \/ dget String.eqb n z = Some w.
  Proof.
    destruct (string_dec z y) as [->|N].
    - rewrite (dget_dset_eq _ string_eqb_spec). intros [= <-]. auto.
    - rewrite (dget_dset_neq _ string_eqb_spec) by assumption. destruct (string_dec z x) as [->|N2].
      + rewrite (dget_dset_eq _ string_eqb_spec). intros [= <-]. auto.
      + rewrite (dget_dset_neq _ string_eqb_spec) by assumption. auto.
  Qed.

  Lemma near_keep (n : list (string * string)) x y z : (z = x \/ z = y \/ exists w, dget String.eqb n z = Some w) ->
    exists w, dget String.eqb (dset String.eqb (dset String.eqb n x y) y x) z = Some w.
  Proof.
    intros H. destruct (string_dec z y) as [->|N].
    - rewrite (dget_dset_eq _ string_eqb_spec). eauto.
    - rewrite (dget_dset_neq _ string_eqb_spec) by assumption. destruct (string_dec z x) as [->|N2].
      + rewrite (dget_dset_eq _ string_eqb_spec). eauto.
      + rewrite (dget_dset_neq _ string_eqb_spec) by assumption. destruct H as [?|[?|?]]; tauto.
  Qed.

  (** one pass *)
  Lemma step s grp k v : inv s grp -> In (k, v) (s_distance s) -> fst v <= m ->
    let a1 := if flip k then snd k else fst k in
    let a2 := if flip k then fst k else snd k in
    exists ar di, absorb (s_areas s) a1 a2 = Ok ar /\
      update_distances a1 a2 (dpop fset_eqb (s_distance s) k) (dkeys ar) = Ok di /\
      (List.length di < List.length (s_distance s))%nat /\
      exists grp', inv {| s_areas := ar; s_distance := di;
                          s_near := dset String.eqb (dset String.eqb (s_near s) (fst (snd v)) (snd (snd v))) (snd (snd v)) (fst (snd v)) |} grp'.
  Proof.
    intros I IK LE a1 a2.
    destruct (v_keys _ _ I _ _ IK) as (c & d & Ic & Id & NE & EK).
    assert (HA : In a1 (map fst (s_areas s)) /\ In a2 (map fst (s_areas s)) /\ a1 <> a2 /\ k = fset a1 a2).
    { unfold a1, a2. destruct (fset_cases c d) as [E|E]; rewrite E in EK; subst k; cbn [fst snd]; destruct (flip _);
        repeat split; auto; try (rewrite fset_sym); congruence. }
    destruct HA as (I1 & I2 & N12 & EK2). clearbody a1 a2. clear c d Ic Id NE EK. subst k.
    destruct (v_dist _ _ I a1 a2 I1 I2 N12) as (v' & G & LK & LO).
    assert (v' = v).
    { rewrite (dget_nodup _ fset_eqb_spec _ _ v (v_dnodup _ _ I) IK) in G. congruence. }
    subst v'.
    destruct (proj1 (dget_key _ string_eqb_spec _ _) I1) as [l1 G1].
    destruct (proj1 (dget_key _ string_eqb_spec _ _) I2) as [l2 G2].
    set (ar := dset String.eqb (dpop String.eqb (s_areas s) a2) a1 (set_union l1 l2)).
    assert (EA : absorb (s_areas s) a1 a2 = Ok ar).
    { unfold absorb. rewrite (proj2 (lookup_ok _ _ _ _) G1). cbn [bind]. rewrite (proj2 (lookup_ok _ _ _ _) G2). reflexivity. }
    assert (NAR : NoDup (map fst ar)) by (apply (dset_nodup _ string_eqb_spec), dpop_nodup, (v_nodup _ _ I)).
    assert (KAR : forall x, In x (map fst ar) <-> In x (map fst (s_areas s)) /\ x <> a2).
    { intros x. unfold ar. rewrite (dset_in_keys _ string_eqb_spec), (dpop_keys _ string_eqb_spec) by apply (v_nodup _ _ I).
      split; [|tauto]. intros [->|?]; auto. }
    set (dp := dpop fset_eqb (s_distance s) (fset a1 a2)).
    assert (NDP : NoDup (map fst dp)) by (apply dpop_nodup, (v_dnodup _ _ I)).
    assert (GDP : forall c d, fset c d <> fset a1 a2 -> dget fset_eqb dp (fset c d) = dget fset_eqb (s_distance s) (fset c d)).
    { intros. apply (dget_dpop_neq _ fset_eqb_spec); assumption. }
    assert (OLD : forall a3, In a3 (map fst (s_areas s)) -> a3 <> a1 -> a3 <> a2 ->
              dget fset_eqb dp (fset a1 a3) = dget fset_eqb (s_distance s) (fset a1 a3) /\
              dget fset_eqb dp (fset a2 a3) = dget fset_eqb (s_distance s) (fset a2 a3)).
    { intros a3 I3 M1 M2. split; apply GDP; rewrite fset_eq; intuition congruence. }
    destruct (update_spec a1 a2 N12 (dkeys ar) dp NAR NDP) as (di & UP & NDI & P & Q).
    { intros a3 I3 M1 M2. apply KAR in I3. destruct I3 as [I3 _]. destruct (OLD a3 I3 M1 M2) as [-> ->].
      destruct (v_dist _ _ I a1 a3 I1 I3) as (w1 & W1 & _); [congruence|].
      destruct (v_dist _ _ I a2 a3 I2 I3) as (w2 & W2 & _); [congruence|]. eauto. }
    exists ar, di. split; [exact EA|]. split; [exact UP|].
    assert (KDI : forall k w, In (k, w) di -> exists c d, In c (map fst ar) /\ In d (map fst ar) /\ c <> d /\ k = fset c d /\ k <> fset a1 a2 /\ In k (map fst (s_distance s))).
    { intros k w Ik. apply (dget_nodup _ fset_eqb_spec) in Ik; [|exact NDI].
      destruct (in_dec (fun x y : string * string => ltac:(decide equality; apply string_dec)) k
                 (map (fset a1) (filter (fun x => negb (String.eqb x a1)) (dkeys ar)))) as [J|J].
      - apply in_map_iff in J. destruct J as (a3 & <- & J). apply filter_In in J. destruct J as [J J2].
        apply negb_true_iff, String.eqb_neq in J2. pose proof (proj1 (KAR a3) J) as [J3 J4].
        exists a1, a3. split; [apply KAR; auto|]. split; [exact J|]. split; [congruence|]. split; [reflexivity|].
        split; [rewrite fset_eq; intuition congruence|].
        destruct (v_dist _ _ I a1 a3 I1 J3) as (w1 & W1 & _); [congruence|]. apply (dget_key _ fset_eqb_spec). eauto.
      - destruct (in_dec (fun x y : string * string => ltac:(decide equality; apply string_dec)) k
                   (map (fset a2) (filter (fun x => negb (String.eqb x a1)) (dkeys ar)))) as [J'|J'].
        + apply in_map_iff in J'. destruct J' as (a3 & <- & J'). apply filter_In in J'. destruct J' as [J' J2].
          apply negb_true_iff, String.eqb_neq in J2. pose proof (proj1 (KAR a3) J') as [J3 J4].
          destruct (P a3 J' J2 J4) as (? & ? & ? & _ & _ & _ & X & _). congruence.
        + assert (E : dget fset_eqb di k = dget fset_eqb dp k).
          { apply Q. intros a3 I3 M1 M2. split; intros ->; [apply J|apply J']; apply in_map, filter_In; (split; [exact I3|]);
              apply negb_true_iff, String.eqb_neq; exact M1. }
          rewrite E in Ik. assert (NK : k <> fset a1 a2).
          { intros ->. unfold dp in Ik. rewrite (dget_dpop_eq _ fset_eqb_spec) in Ik by apply (v_dnodup _ _ I). discriminate. }
          unfold dp in Ik. rewrite (dget_dpop_neq _ fset_eqb_spec) in Ik by exact NK.
          apply (dget_In _ fset_eqb_spec) in Ik. destruct (v_keys _ _ I _ _ Ik) as (c & d & Ic & Id & NE & ->).
          assert (c <> a2 /\ d <> a2).
          { split; intros ->.
            - destruct (string_dec d a1) as [->|ND1]; [apply NK, fset_sym|]. apply J'. apply in_map, filter_In.
              split; [apply KAR; split; congruence|]. now apply negb_true_iff, String.eqb_neq.
            - destruct (string_dec c a1) as [->|ND1]; [now apply NK|]. apply J'. rewrite fset_sym. apply in_map, filter_In.
              split; [apply KAR; split; congruence|]. now apply negb_true_iff, String.eqb_neq. }
          exists c, d. rewrite !KAR. repeat split; try tauto. apply in_map with (f := fst) in Ik. exact Ik. }
    split.
    { assert (IN : incl (fset a1 a2 :: map fst di) (map fst (s_distance s))).
      { intros k [<-|Ik]; [apply (dget_key _ fset_eqb_spec); eauto|]. apply in_map_iff in Ik. destruct Ik as ([k' w] & <- & Ik).
        destruct (KDI _ _ Ik) as (? & ? & _ & _ & _ & _ & _ & X). exact X. }
      apply NoDup_incl_length in IN; [cbn in IN; rewrite !map_length in IN; lia|]. constructor; [|exact NDI].
      intros Ik. apply in_map_iff in Ik. destruct Ik as ([k' w] & E & Ik). cbn in E. subst k'.
      destruct (KDI _ _ Ik) as (? & ? & _ & _ & _ & _ & X & _). congruence. }
    set (grp' := fun c a => c <> a2 /\ (grp c a \/ c = a1 /\ grp a2 a)).
    exists grp'.
    assert (CH : chain a1 a2).
    { destruct LK as (a & b & A & B & K & C). apply rst_trans with a; [apply (v_chain _ _ I _ _ A)|].
      apply rst_trans with b; [|apply rst_sym, (v_chain _ _ I _ _ B)]. apply rst_step.
      destruct C as [[C1 C2]|[C1 C2]]; [exists (fst (snd v)), (snd (snd v)), (fst v)|exists (snd (snd v)), (fst (snd v)), (fst v)]; auto. }
    constructor; cbn [s_areas s_distance s_near].
    - exact NAR.
    - intros c Ic. apply KAR in Ic. destruct Ic as [Ic N]. destruct (v_names _ _ I c Ic). split; [assumption|]. split; auto.
    - intros c a [N [Gc|[-> Gc]]]; destruct (v_grp _ _ I _ _ Gc) as [X Y]; (split; [|exact Y]); apply KAR; auto.
    - intros a Ia. destruct (v_all _ _ I a Ia) as [c Gc]. destruct (string_dec c a2) as [->|N].
      + exists a1. split; auto.
      + exists c. split; auto.
    - intros c d a [N Hc] [N' Hd].
      destruct Hc as [Hc|[-> Hc]], Hd as [Hd|[-> Hd]]; pose proof (v_one _ _ I _ _ _ Hc Hd); congruence.
    - intros c l Il x. assert (NC : c <> a2).
      { apply KAR. apply in_map with (f := fst) in Il. exact Il. }
      apply (dget_nodup _ string_eqb_spec) in Il; [|exact NAR]. unfold ar in Il. destruct (string_dec c a1) as [->|N].
      + rewrite (dget_dset_eq _ string_eqb_spec) in Il. injection Il as <-. rewrite set_union_in.
        rewrite (v_sets _ _ I a1 l1 (dget_In _ string_eqb_spec _ _ _ G1) x), (v_sets _ _ I a2 l2 (dget_In _ string_eqb_spec _ _ _ G2) x).
        unfold grp'. split.
        * intros [(a & sa & H1 & H2 & H3)|(a & sa & H1 & H2 & H3)]; exists a, sa; auto 7.
        * intros (a & sa & H1 & (_ & [H2|[_ H2]]) & H3); [left|right]; exists a, sa; auto.
      + rewrite (dget_dset_neq _ string_eqb_spec) in Il by exact N. rewrite (dget_dpop_neq _ string_eqb_spec) in Il by exact NC.
        apply (dget_In _ string_eqb_spec) in Il. rewrite (v_sets _ _ I c l Il x). unfold grp'. split.
        * intros (a & sa & H1 & H2 & H3). exists a, sa. auto 7.
        * intros (a & sa & H1 & (_ & [H2|[? H2]]) & H3); [|congruence]. exists a, sa; auto.
    - exact NDI.
    - assert (BASE : forall c, In c (map fst ar) -> c <> a1 -> exists w, dget fset_eqb di (fset a1 c) = Some w /\ link_ grp' a1 c w /\ low_ grp' a1 c w).
      { intros c Ic Nc. pose proof (proj1 (KAR c) Ic) as [Ic' Nc2].
        destruct (P c Ic Nc Nc2) as (d1 & d2 & w & P1 & P2 & P3 & _ & P5).
        destruct (OLD c Ic' Nc Nc2) as [O1 O2]. rewrite O1 in P1. rewrite O2 in P2.
        destruct (v_dist _ _ I a1 c I1 Ic') as (w1 & W1 & L1 & M1); [congruence|]. rewrite W1 in P1. injection P1 as <-.
        destruct (v_dist _ _ I a2 c I2 Ic') as (w2 & W2 & L2 & M2); [congruence|]. rewrite W2 in P2. injection P2 as <-.
        exists w. split; [exact P3|]. split.
        - destruct P5 as [[-> _]|[-> _]].
          + destruct L1 as (a & b & A & B & X). exists a, b. unfold grp'. repeat split; auto; tauto.
          + destruct L2 as (a & b & A & B & X). exists a, b. unfold grp'. repeat split; auto; tauto.
        - intros a b x y e [_ A] [_ B] X Y K. destruct B as [B|[? _]]; [|congruence].
          destruct A as [A|[_ A]].
          + pose proof (M1 a b x y e A B X Y K). destruct P5 as [[-> ?]|[-> ?]]; lra.
          + pose proof (M2 a b x y e A B X Y K). destruct P5 as [[-> ?]|[-> ?]]; lra. }
      intros c d Ic Id NE. destruct (string_dec c a1) as [->|N1]; [apply BASE; auto|].
      destruct (string_dec d a1) as [->|N2].
      + destruct (BASE c Ic N1) as (w & W1 & W2 & W3). exists w. rewrite fset_sym. split; [exact W1|]. split; [apply link_sym|apply low_sym]; assumption.
      + pose proof (proj1 (KAR c) Ic) as [Ic' Nc2]. pose proof (proj1 (KAR d) Id) as [Id' Nd2].
        destruct (v_dist _ _ I c d Ic' Id' NE) as (w & W1 & L1 & M1). exists w. split.
        * rewrite Q; [rewrite GDP; [exact W1|rewrite fset_eq; intuition congruence]|].
          intros a3 I3 X1 X2. rewrite !fset_eq. intuition congruence.
        * split.
          -- destruct L1 as (a & b & A & B & X). exists a, b. unfold grp'. repeat split; auto; tauto.
          -- intros a b x y e [_ [A|[? _]]] [_ [B|[? _]]] X Y K; try congruence. apply (M1 a b x y e); auto.
    - intros k w Ik. destruct (KDI k w Ik) as (c & d & X1 & X2 & X3 & X4 & _). exists c, d. auto.
    - intros c a [_ [Gc|[-> Gc]]]; [apply (v_chain _ _ I _ _ Gc)|]. apply rst_trans with a2; [exact CH|apply (v_chain _ _ I _ _ Gc)].
    - intros x y H. apply near_set in H. destruct LK as (a & b & A & B & K & C).
      assert (NAB : a <> b). { intros ->. apply N12. apply (v_one _ _ I _ _ _ A B). }
      assert (CAB : chain a b).
      { apply rst_trans with a1; [apply rst_sym, (v_chain _ _ I _ _ A)|]. apply rst_trans with a2; [exact CH|apply (v_chain _ _ I _ _ B)]. }
      assert (CBA : chain b a) by now apply rst_sym.
      destruct H as [[-> ->]|[[-> ->]|H]]; [| |apply (v_near _ _ I _ _ H)]; destruct C as [[C1 C2]|[C1 C2]].
      + exists a, b, (fst v); auto 8.
      + exists b, a, (fst v); auto 8.
      + exists b, a, (fst v); auto 8.
      + exists a, b, (fst v); auto 8.
    - intros c a b [Nc A] [_ B] NAB.
      assert (OLDN : forall c, grp c a -> grp c b -> exists x y, crn a x /\
         dget String.eqb (dset String.eqb (dset String.eqb (s_near s) (fst (snd v)) (snd (snd v))) (snd (snd v)) (fst (snd v))) x = Some y).
      { intros c0 A0 B0. destruct (v_some _ _ I c0 a b A0 B0 NAB) as (x & y & X & Y).
        destruct (near_keep (s_near s) (fst (snd v)) (snd (snd v)) x) as [w W]; [eauto|]. exists x, w. auto. }
      destruct A as [A|[EC A]], B as [B|[EC' B]]; try (apply (OLDN _ A B)).
      + (* a in a1, b in a2: a1's group may be a alone *)
        subst c. destruct LK as (p & q & LP & LQ & K & C).
        destruct (string_dec a p) as [->|NP].
        * destruct C as [[C1 C2]|[C1 C2]].
          -- destruct (near_keep (s_near s) (fst (snd v)) (snd (snd v)) (fst (snd v))) as [w W]; [auto|]. exists (fst (snd v)), w. auto.
          -- destruct (near_keep (s_near s) (fst (snd v)) (snd (snd v)) (snd (snd v))) as [w W]; [auto|]. exists (snd (snd v)), w. auto.
        * destruct (v_some _ _ I a1 a p A LP NP) as (x & y & X & Y).
          destruct (near_keep (s_near s) (fst (snd v)) (snd (snd v)) x) as [w W]; [eauto|]. exists x, w. auto.
      + subst c. destruct LK as (p & q & LP & LQ & K & C).
        destruct (string_dec a q) as [->|NP].
        * destruct C as [[C1 C2]|[C1 C2]].
          -- destruct (near_keep (s_near s) (fst (snd v)) (snd (snd v)) (snd (snd v))) as [w W]; [auto|]. exists (snd (snd v)), w. auto.
          -- destruct (near_keep (s_near s) (fst (snd v)) (snd (snd v)) (fst (snd v))) as [w W]; [auto|]. exists (fst (snd v)), w. auto.
        * destruct (v_some _ _ I a2 a q A LQ NP) as (x & y & X & Y).
          destruct (near_keep (s_near s) (fst (snd v)) (snd (snd v)) x) as [w W]; [eauto|]. exists x, w. auto.
  Qed.

  (** the whole loop: it succeeds and no two areas are nearby at the end *)
  Lemma loop : forall fuel s grp, inv s grp -> (List.length (s_distance s) <= fuel)%nat ->
    exists s' grp', join_loop flip m fuel s = Ok s' /\ inv s' grp' /\
      forall c d a b, grp' c a -> grp' d b -> c <> d -> ~ nearby a b.
  Proof.
    assert (END : forall s grp, inv s grp -> (forall k v, In (k, v) (s_distance s) -> m < fst v) ->
              forall c d a b, grp c a -> grp d b -> c <> d -> ~ nearby a b).
    { intros s grp I H c d a b A B NE (x & y & e & X & Y & K & LE).
      destruct (v_dist _ _ I c d) as (v & G & _ & LO); [apply (v_grp _ _ I _ _ A)|apply (v_grp _ _ I _ _ B)|exact NE|].
      apply (dget_In _ fset_eqb_spec) in G. apply H in G. pose proof (LO a b x y e A B X Y K). lra. }
    induction fuel as [|fuel IH]; intros s grp I LE.
    - exists s, grp. split; [reflexivity|]. split; [exact I|]. apply (END _ _ I).
      destruct (s_distance s); [intros ? ? []|cbn in LE; lia].
    - cbn [join_loop]. destruct (s_distance s) as [|x0 ds] eqn:ED.
      + exists s, grp. split; [reflexivity|]. split; [exact I|]. apply (END _ _ I). rewrite ED. intros ? ? [].
      + rewrite <- ED in *. destruct (min_item_some dist_ltb (s_distance s)) as [[k v] EM]; [rewrite ED; discriminate|].
        rewrite EM. cbn [bind fst snd]. apply min_item_dist in EM. destruct EM as [IK MIN]. cbn [fst snd] in MIN.
        destruct (Rlt_dec m (fst v)) as [L|L].
        * exists s, grp. split; [reflexivity|]. split; [exact I|]. apply (END _ _ I). intros k' v' I'. apply MIN in I'. cbn in I'. lra.
        * destruct (step s grp k v I IK ltac:(lra)) as (ar & di & E1 & E2 & LL & grp' & I').
          rewrite E1. cbn [bind]. rewrite E2. cbn [bind]. apply (IH _ grp' I'). cbn [s_distance]. lia.
  Qed.
End Loop.
