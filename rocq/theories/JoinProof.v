(** Lemmas on dictionaries with unordered pairs as keys and on the distances of areas. *)
From Coq Require Import String List Bool Reals Lra Lia Arith Relations.
From Verif Require Import Base JoinModel JoinSpec.
Import ListNotations.
Open Scope string_scope.
Open Scope list_scope.
Open Scope R_scope.

Lemma fset_sym a b : fset a b = fset b a.
Proof.
  unfold fset. rewrite (String.compare_antisym a b). destruct (String.compare b a) eqn:E; cbn; try reflexivity.
  apply String.compare_eq_iff in E. now subst.
Qed.

Lemma fset_eq a b c d : fset a b = fset c d <-> (a = c /\ b = d) \/ (a = d /\ b = c).
Proof.
  split.
  - unfold fset. destruct (String.compare a b), (String.compare c d); intros H; injection H as -> ->; auto.
  - intros [[-> ->]|[-> ->]]; [reflexivity|apply fset_sym].
Qed.

Lemma fset_cases a b : fset a b = (a, b) \/ fset a b = (b, a).
Proof. unfold fset. destruct (String.compare a b); auto. Qed.

Lemma fset_eqb_spec x y : fset_eqb x y = true <-> x = y.
Proof.
  destruct x as [a b], y as [c d]. unfold fset_eqb; cbn. rewrite andb_true_iff, !String.eqb_eq. split.
  - intros [-> ->]; reflexivity.
  - intros [= -> ->]; auto.
Qed.

Lemma num_ltb_false x y : num_ltb x y = false <-> y <= x.
Proof. unfold num_ltb. destruct (Rlt_dec x y); split; intros; try discriminate; try lra; reflexivity. Qed.
Lemma num_ltb_true x y : num_ltb x y = true <-> x < y.
Proof. unfold num_ltb. destruct (Rlt_dec x y); split; intros; try discriminate; try lra; reflexivity. Qed.

Lemma dist_ltb_le x y : (dist_ltb x y = true -> fst x <= fst y) /\ (dist_ltb x y = false -> fst y <= fst x).
Proof.
  unfold dist_ltb. destruct (Rlt_dec (fst x) (fst y)); [split; intros; [lra|discriminate]|].
  destruct (Req_EM_T (fst x) (fst y)); split; intros; try lra; try discriminate.
Qed.

Lemma min_item_gen {K V} (ltb : V -> V -> bool) (val : V -> R) (d : list (K * V)) m :
  (forall x y, (ltb x y = true -> val x <= val y) /\ (ltb x y = false -> val y <= val x)) ->
  min_item ltb d = Ok m -> In m d /\ forall x, In x d -> val (snd m) <= val (snd x).
Proof.
  intros L. destruct d as [|x d]; cbn; [discriminate|]. intros [= <-].
  revert x. induction d as [|y d IH]; intros x; cbn.
  - split; [now left|]. intros z [<-|[]]. lra.
  - destruct (IH (if ltb (snd y) (snd x) then y else x)) as [I M]. split.
    + destruct I as [<-|I]; [|now right; right]. destruct (ltb (snd y) (snd x)); [right; now left|now left].
    + assert (B : val (snd (if ltb (snd y) (snd x) then y else x)) <= val (snd y) /\
                  val (snd (if ltb (snd y) (snd x) then y else x)) <= val (snd x)).
      { destruct (ltb (snd y) (snd x)) eqn:E.
        - split; [lra|]. now apply (proj1 (L _ _)).
        - split; [|lra]. now apply (proj2 (L _ _)). }
      specialize (M _ (or_introl eq_refl)) as M0.
      intros z [<-|[<-|I2]]; [lra|lra|]. apply M. now right.
Qed.

Lemma min_item_dist {K} (d : list (K * (R * (string * string)))) m : min_item dist_ltb d = Ok m ->
  In m d /\ forall x, In x d -> fst (snd m) <= fst (snd x).
Proof. apply (min_item_gen dist_ltb fst). intros; apply dist_ltb_le. Qed.

Lemma min_item_num {K} (d : list (K * R)) m : min_item num_ltb d = Ok m -> In m d /\ forall x, In x d -> snd m <= snd x.
Proof.
  apply (min_item_gen num_ltb (fun x => x)). intros x y. rewrite num_ltb_true, num_ltb_false. split; lra.
Qed.

Lemma min_item_some {K V} ltb (d : list (K * V)) : d <> [] -> exists m, min_item ltb d = Ok m.
Proof. destruct d; [congruence|]. intros _. eexists. reflexivity. Qed.

Lemma mapM_ok2 {A B} (f : A -> res B) : forall l l', mapM f l = Ok l' -> Forall2 (fun a b => f a = Ok b) l l'.
Proof.
  induction l as [|a l IH]; cbn; intros l' H.
  - injection H as <-. constructor.
  - destruct (f a) eqn:E; [cbn in H|discriminate]. destruct (mapM f l) eqn:E2; [cbn in H|discriminate].
    injection H as <-. constructor; auto.
Qed.

Lemma mapM_all {A B} (f : A -> res B) l : (forall a, In a l -> exists b, f a = Ok b) -> exists l', mapM f l = Ok l'.
Proof.
  induction l as [|a l IH]; intros H; cbn.
  - now exists [].
  - destruct (H a (or_introl eq_refl)) as [b E]. rewrite E. cbn.
    destruct IH as [l' E2]; [intros; apply H; now right|]. rewrite E2. cbn. now exists (b :: l').
Qed.

Lemma Forall2_in_l {A B} (P : A -> B -> Prop) l l' a : Forall2 P l l' -> In a l -> exists b, In b l' /\ P a b.
Proof.
  induction 1; cbn; [tauto|]. intros [<-|I]; [exists y; auto|]. destruct (IHForall2 I) as (b & ? & ?). exists b; auto.
Qed.
Lemma Forall2_in_r {A B} (P : A -> B -> Prop) l l' b : Forall2 P l l' -> In b l' -> exists a, In a l /\ P a b.
Proof.
  induction 1; cbn; [tauto|]. intros [<-|I]; [exists x; auto|]. destruct (IHForall2 I) as (a & ? & ?). exists a; auto.
Qed.

Lemma set_of_in l x : In x (set_of l) <-> In x l.
Proof.
  unfold set_of.
  enough (G : forall s, In x (fold_left (fun s x => if inb String.eqb x s then s else s ++ [x]) l s) <-> In x s \/ In x l).
  { rewrite G. cbn. tauto. }
  induction l as [|y l IH]; intros s; cbn [fold_left].
  - cbn. tauto.
  - rewrite IH. destruct (inb String.eqb y s) eqn:E.
    + apply (inb_In _ string_eqb_spec) in E. cbn [In]. split; [tauto|]. intros [H|[<-|H]]; auto.
    + rewrite in_app_iff. cbn. tauto.
Qed.

Lemma set_union_in s t x : In x (set_union s t) <-> In x s \/ In x t.
Proof.
  unfold set_union. rewrite in_app_iff, filter_In. destruct (inb String.eqb x s) eqn:E.
  - apply (inb_In _ string_eqb_spec) in E. tauto.
  - cbn. tauto.
Qed.

Lemma lookup_ok {K V} (eqb : K -> K -> bool) (d : list (K * V)) k v : lookup eqb d k = Ok v <-> dget eqb d k = Some v.
Proof. unfold lookup. destruct (dget eqb d k); split; congruence. Qed.

(** ** distances after joining *)
Lemma update_spec a1 a2 : a1 <> a2 -> forall names distance,
  NoDup names -> NoDup (map fst distance) ->
  (forall a3, In a3 names -> a3 <> a1 -> a3 <> a2 -> exists d1 d2, dget fset_eqb distance (fset a1 a3) = Some d1 /\ dget fset_eqb distance (fset a2 a3) = Some d2) ->
  exists distance', update_distances a1 a2 distance names = Ok distance' /\ NoDup (map fst distance') /\
    (forall a3, In a3 names -> a3 <> a1 -> a3 <> a2 -> exists d1 d2 d,
       dget fset_eqb distance (fset a1 a3) = Some d1 /\ dget fset_eqb distance (fset a2 a3) = Some d2 /\
       dget fset_eqb distance' (fset a1 a3) = Some d /\ dget fset_eqb distance' (fset a2 a3) = None /\
       (d = d1 /\ fst d1 <= fst d2 \/ d = d2 /\ fst d2 <= fst d1)) /\
    (forall k, (forall a3, In a3 names -> a3 <> a1 -> a3 <> a2 -> k <> fset a1 a3 /\ k <> fset a2 a3) ->
       dget fset_eqb distance' k = dget fset_eqb distance k).
Proof.
  intros NE. induction names as [|n names IH]; intros distance NN ND H.
  - cbn. exists distance. split; [reflexivity|]. split; [assumption|]. split; [intros ? []|reflexivity].
  - cbn [update_distances]. inversion NN as [|? ? NI NN']; subst.
    destruct (String.eqb n a1 || String.eqb n a2) eqn:E.
    + assert (E2 : n = a1 \/ n = a2) by (apply orb_true_iff in E; rewrite !String.eqb_eq in E; exact E).
      destruct (IH distance NN' ND) as (d' & U & ND' & P & Q); [intros; apply H; auto; now right|].
      exists d'. split; [exact U|]. split; [exact ND'|]. split.
      * intros a3 [<-|I] N1 N2; [destruct E2; congruence|]. auto.
      * intros k K. apply Q. intros a3 I. apply K. now right.
    + assert (E2 : n <> a1 /\ n <> a2) by (apply orb_false_iff in E; rewrite !String.eqb_neq in E; exact E).
      destruct E2 as [N1 N2].
      destruct (H n (or_introl eq_refl) N1 N2) as (d1 & d2 & G1 & G2).
      rewrite (proj2 (lookup_ok _ _ _ _) G1). cbn [bind]. rewrite (proj2 (lookup_ok _ _ _ _) G2). cbn [bind].
      set (dp := dpop fset_eqb distance (fset a2 n)).
      set (dn := if num_ltb (fst d2) (fst d1) then dset fset_eqb dp (fset a1 n) d2 else dp).
      assert (NDp : NoDup (map fst dp)) by (apply dpop_nodup; assumption).
      assert (NDn : NoDup (map fst dn)).
      { unfold dn. destruct (num_ltb _ _); [apply (dset_nodup _ fset_eqb_spec)|]; assumption. }
      assert (X : fset a1 n <> fset a2 n) by (rewrite fset_eq; intros [[? ?]|[? ?]]; congruence).
      assert (OTH : forall k, k <> fset a1 n -> k <> fset a2 n -> dget fset_eqb dn k = dget fset_eqb distance k).
      { intros k K1 K2. unfold dn. destruct (num_ltb _ _).
        - rewrite (dget_dset_neq _ fset_eqb_spec) by assumption. apply (dget_dpop_neq _ fset_eqb_spec); assumption.
        - apply (dget_dpop_neq _ fset_eqb_spec); assumption. }
      assert (A2 : dget fset_eqb dn (fset a2 n) = None).
      { unfold dn. destruct (num_ltb _ _).
        - rewrite (dget_dset_neq _ fset_eqb_spec) by congruence. apply (dget_dpop_eq _ fset_eqb_spec); assumption.
        - apply (dget_dpop_eq _ fset_eqb_spec); assumption. }
      assert (A1 : exists d, dget fset_eqb dn (fset a1 n) = Some d /\ (d = d1 /\ fst d1 <= fst d2 \/ d = d2 /\ fst d2 <= fst d1)).
      { unfold dn. destruct (num_ltb (fst d2) (fst d1)) eqn:L.
        - exists d2. rewrite (dget_dset_eq _ fset_eqb_spec). split; [reflexivity|]. right. apply num_ltb_true in L. split; [reflexivity|lra].
        - exists d1. unfold dp. rewrite (dget_dpop_neq _ fset_eqb_spec) by assumption. split; [assumption|]. left. apply num_ltb_false in L. auto. }
      assert (SEP : forall a3, In a3 names -> a3 <> a1 -> a3 <> a2 ->
                fset a1 a3 <> fset a1 n /\ fset a1 a3 <> fset a2 n /\ fset a2 a3 <> fset a1 n /\ fset a2 a3 <> fset a2 n).
      { intros a3 I M1 M2. assert (a3 <> n) by congruence. rewrite !fset_eq. intuition congruence. }
      destruct (IH dn NN' NDn) as (d' & U & ND' & P & Q).
      { intros a3 I M1 M2. destruct (SEP a3 I M1 M2) as (S1 & S2 & S3 & S4). rewrite !OTH by assumption. apply H; auto. now right. }
      exists d'. split; [exact U|]. split; [exact ND'|]. split.
      * intros a3 [<-|I] M1 M2.
        -- destruct A1 as (d & A1 & C). exists d1, d2, d. repeat split; auto.
           ++ rewrite Q; [exact A1|]. intros a3 I M3 M4. destruct (SEP a3 I M3 M4) as (S1 & S2 & S3 & S4). split; congruence.
           ++ rewrite Q; [exact A2|]. intros a3 I M3 M4. destruct (SEP a3 I M3 M4) as (S1 & S2 & S3 & S4). split; congruence.
        -- destruct (SEP a3 I M1 M2) as (S1 & S2 & S3 & S4). destruct (P a3 I M1 M2) as (e1 & e2 & e & P1 & P2 & P3 & P4 & P5).
           rewrite OTH in P1 by assumption. rewrite OTH in P2 by assumption. exists e1, e2, e. auto.
      * intros k K. rewrite Q.
        -- destruct (K n (or_introl eq_refl) N1 N2). apply OTH; assumption.
        -- intros a3 I M1 M2. apply K; auto. now right.
Qed.
