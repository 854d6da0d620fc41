(** Coordinates, hulls and the distances at the start; the whole function. *)
From Coq Require Import String List Bool Reals Lra Lia Arith Relations.
From Verif Require Import Base JoinModel JoinSpec JoinProof JoinProof2.
Import ListNotations.
Open Scope string_scope.
Open Scope list_scope.
Open Scope R_scope.

Lemma or_num_spec x y z : z = or_num x y <-> (x <> 0 /\ z = x \/ x = 0 /\ z = y).
Proof. unfold or_num. destruct (Req_EM_T x 0); intuition congruence. Qed.

Lemma collect_from inv : forall c0 coords, collect_coordinates_from c0 inv = Ok coords -> forall s p,
  dget String.eqb coords s = Some p <->
  located inv s p \/ (dget String.eqb c0 s = Some p /\ Forall (fun y => full_name y <> s) inv).
Proof.
  induction inv as [|x inv IH]; intros c0 coords H s p.
  - cbn in H. injection H as <-. split; [auto|]. intros [(b & x & a & c & cs & E & _)|[? _]]; [|assumption]. destruct b; discriminate.
  - cbn [collect_coordinates_from] in H. destruct (i_channels x) as [|c cs] eqn:EC; [discriminate|].
    rewrite (IH _ _ H s p). clear IH H.
    change (i_net x ++ "." ++ i_code x)%string with (full_name x).
    split.
    + intros [(b & y & a & c' & cs' & E & R)|[G F]].
      * left. exists (x :: b), y, a, c', cs'. split; [cbn; congruence|exact R].
      * destruct (string_dec s (full_name x)) as [->|N].
        -- rewrite (dget_dset_eq _ string_eqb_spec) in G. injection G as <-. left. exists [], x, inv, c, cs.
           repeat split; auto; cbn [fst snd]; apply or_num_spec; reflexivity.
        -- rewrite (dget_dset_neq _ string_eqb_spec) in G by exact N. right. split; [exact G|]. constructor; [congruence|exact F].
    + intros [(b & y & a & c' & cs' & E & N & F & EC' & X & Y)|[G F]].
      * destruct b as [|z b]; cbn in E; injection E as -> ->.
        -- right. rewrite EC in EC'. injection EC' as -> ->. subst s. rewrite (dget_dset_eq _ string_eqb_spec).
           split; [|exact F]. apply or_num_spec in X. apply or_num_spec in Y. destruct p; cbn [fst snd] in *. congruence.
        -- left. exists b, y, a, c', cs'. repeat split; auto.
      * inversion F; subst. right. rewrite (dget_dset_neq _ string_eqb_spec) by congruence. auto.
Qed.

Lemma collect_ok inv coords : collect_coordinates inv = Ok coords -> forall s p, dget String.eqb coords s = Some p <-> located inv s p.
Proof.
  intros H s p. rewrite (collect_from _ _ _ H). cbn. split; [|auto]. intros [?|[? _]]; [assumption|discriminate].
Qed.

Lemma collect_total inv : Forall (fun x => i_channels x <> []) inv -> exists coords, collect_coordinates inv = Ok coords.
Proof.
  unfold collect_coordinates. generalize (@nil (string * (R * R))). induction inv as [|x inv IH]; intros c0 F; cbn.
  - eauto.
  - inversion F; subst. destruct (i_channels x); [congruence|]. apply IH; assumption.
Qed.

Lemma collect_nodup inv : forall c0 coords, NoDup (map fst c0) -> collect_coordinates_from c0 inv = Ok coords -> NoDup (map fst coords).
Proof.
  induction inv as [|x inv IH]; intros c0 coords N H; cbn in H.
  - congruence.
  - destruct (i_channels x); [discriminate|]. apply (IH _ _ (dset_nodup _ string_eqb_spec _ _ _ N) H).
Qed.

Lemma coord_eqb_spec x y : coord_eqb x y = true <-> x = y.
Proof.
  destruct x as [a b], y as [c d]. unfold coord_eqb; cbn. destruct (Req_EM_T a c), (Req_EM_T b d); split; congruence.
Qed.

Lemma by_coordinate coords p : 
  (forall s, dget coord_eqb (station_by_coordinate coords) p = Some s -> In (s, p) coords) /\
  (forall s, In (s, p) coords -> exists s', dget coord_eqb (station_by_coordinate coords) p = Some s').
Proof.
  unfold station_by_coordinate.
  enough (G : forall d0, (forall s, dget coord_eqb (fold_left (fun d sc => dset coord_eqb d (snd sc) (fst sc)) coords d0) p = Some s ->
                In (s, p) coords \/ dget coord_eqb d0 p = Some s) /\
             ((exists s, In (s, p) coords) \/ (exists s, dget coord_eqb d0 p = Some s) ->
                exists s', dget coord_eqb (fold_left (fun d sc => dset coord_eqb d (snd sc) (fst sc)) coords d0) p = Some s')).
  { destruct (G []) as [G1 G2]. split; [|intros s I; apply G2; eauto]. intros s H. destruct (G1 s H); [assumption|discriminate]. }
  induction coords as [|[s0 p0] coords IH]; intros d0; cbn [fold_left fst snd].
  - split; [auto|]. intros [[s []]|H]; exact H.
  - destruct (IH (dset coord_eqb d0 p0 s0)) as [I1 I2]. split.
    + intros s H. destruct (I1 s H) as [I|I]; [left; now right|].
      destruct (coord_eqb p p0) eqn:E.
      * apply coord_eqb_spec in E. subst. rewrite (dget_dset_eq _ coord_eqb_spec) in I. injection I as ->. left; now left.
      * rewrite (dget_dset_neq _ coord_eqb_spec) in I; [auto|]. intros ->. rewrite (proj2 (coord_eqb_spec p0 p0) eq_refl) in E. discriminate.
    + intros H. apply I2. destruct (coord_eqb p p0) eqn:E.
      * apply coord_eqb_spec in E. subst. right. exists s0. apply (dget_dset_eq _ coord_eqb_spec).
      * assert (N : p <> p0) by (intros ->; rewrite (proj2 (coord_eqb_spec p0 p0) eq_refl) in E; discriminate).
        destruct H as [[s [X|X]]|[s X]]; [congruence|left; eauto|right; exists s]. rewrite (dget_dset_neq _ coord_eqb_spec); assumption.
Qed.

Lemma Forall2_len {A B} (P : A -> B -> Prop) l l' : Forall2 P l l' -> List.length l = List.length l'.
Proof. induction 1; cbn; congruence. Qed.

Section Whole.
  Variable hull : list (R * R) -> res (list nat).
  Variable dist : R * R -> R * R -> R.
  Variable flip : string * string -> bool.
  Variable inv0 : list inv_station.
  Variable areas : list (string * list string).
  Variable m : R.
  Variable coords : list (string * (R * R)).
  Hypothesis COL : collect_coordinates inv0 = Ok coords.
  Hypothesis APART : all_apart inv0.
  Hypothesis SYM : forall p q, dist p q = dist q p.
  Hypothesis ND : NoDup (map fst areas).

  Lemma points_located sts : forall pts, mapM (lookup String.eqb coords) sts = Ok pts <-> Forall2 (located inv0) sts pts.
  Proof.
    induction sts as [|s sts IH]; intros pts; cbn [mapM].
    - split; [intros [= <-]; constructor|]. inversion 1; reflexivity.
    - split.
      + destruct (lookup String.eqb coords s) eqn:E; [cbn [bind]|discriminate]. destruct (mapM (lookup String.eqb coords) sts) eqn:E2; [cbn [bind]|discriminate].
        intros [= <-]. constructor; [|apply IH; reflexivity]. apply lookup_ok in E. now apply (collect_ok _ _ COL).
      + inversion 1 as [|? p ? pts' L F]; subst. apply (collect_ok _ _ COL) in L. apply lookup_ok in L. rewrite L. cbn [bind].
        apply IH in F. rewrite F. reflexivity.
  Qed.

  Lemma station_at p s : located inv0 s p -> lookup coord_eqb (station_by_coordinate coords) p = Ok s.
  Proof.
    intros L. destruct (by_coordinate coords p) as [B1 B2]. pose proof L as L2. apply (collect_ok _ _ COL) in L2.
    destruct (B2 s (dget_In _ string_eqb_spec _ _ _ L2)) as [s' E]. apply lookup_ok. rewrite E. f_equal.
    apply B1 in E. apply (dget_nodup _ string_eqb_spec) in E; [|apply (collect_nodup inv0 [] coords); [constructor|exact COL]].
    apply (collect_ok _ _ COL) in E. apply (APART _ _ _ E L).
  Qed.

  Definition crn1 (sts : list string) (s : string) : Prop :=
    exists points vertices i, Forall2 (located inv0) sts points /\ hull points = Ok vertices /\ In i vertices /\ nth_error sts i = Some s.

  Lemma Forall2_nth_l {A B} (P : A -> B -> Prop) l l' : Forall2 P l l' -> forall i b, nth_error l' i = Some b -> exists a, nth_error l i = Some a /\ P a b.
  Proof.
    induction 1; intros [|i] b E; cbn in *; try discriminate.
    - injection E as <-. eauto.
    - apply IHForall2; assumption.
  Qed.
  Lemma Forall2_nth_r {A B} (P : A -> B -> Prop) l l' : Forall2 P l l' -> forall i a, nth_error l i = Some a -> exists b, nth_error l' i = Some b /\ P a b.
  Proof.
    induction 1; intros [|i] b E; cbn in *; try discriminate.
    - injection E as <-. eauto.
    - apply IHForall2; assumption.
  Qed.

  Lemma area_hull_ok sts h : area_hull hull coords sts = Ok h -> forall s, In s h <-> crn1 sts s.
  Proof.
    unfold area_hull. destruct (mapM _ sts) as [pts|] eqn:EP; [cbn [bind]|discriminate].
    destruct (hull pts) as [vs|] eqn:EV; [cbn [bind]|discriminate].
    destruct (mapM _ vs) as [cs|] eqn:EC; [cbn [bind]|discriminate]. intros [= <-] s. rewrite set_of_in.
    apply points_located in EP. apply mapM_ok2 in EC. split.
    - intros I. destruct (Forall2_in_r _ _ _ _ EC I) as (i & Ii & H). destruct (nth_error pts i) as [p|] eqn:EN; [|discriminate].
      destruct (Forall2_nth_l _ _ _ EP _ _ EN) as (s' & E' & L). rewrite (station_at _ _ L) in H. injection H as ->.
      exists pts, vs, i. auto.
    - intros (pts' & vs' & i & F & HV & Ii & E). apply points_located in F. apply points_located in EP. assert (pts' = pts) by congruence. subst pts'.
      assert (vs' = vs) by congruence. subst vs'. apply points_located in EP.
      destruct (Forall2_in_l _ _ _ _ EC Ii) as (c & Ic & H). destruct (Forall2_nth_r _ _ _ EP _ _ E) as (p & EN & L).
      rewrite EN, (station_at _ _ L) in H. congruence.
  Qed.

  Lemma area_hull_total sts pts vs : Forall2 (located inv0) sts pts -> hull pts = Ok vs -> Forall (fun i => (i < List.length pts)%nat) vs ->
    exists h, area_hull hull coords sts = Ok h.
  Proof.
    intros F EV BD. unfold area_hull. rewrite (proj2 (points_located _ _) F). cbn [bind]. rewrite EV. cbn [bind].
    match goal with |- context [mapM ?f vs] => destruct (mapM_all f vs) as [cs E] end.
    { intros i Ii. rewrite Forall_forall in BD. apply BD in Ii. destruct (nth_error pts i) as [p|] eqn:EN; [|apply nth_error_None in EN; lia].
      destruct (Forall2_nth_l _ _ _ F _ _ EN) as (s' & E' & L). rewrite (station_at _ _ L). eauto. }
    rewrite E. cbn. eauto.
  Qed.

  Definition km1 (s t : string) (d : R) : Prop := distant dist inv0 s t d.

  Lemma km1_sym s t d : km1 s t d -> km1 t s d.
  Proof. intros (p & q & P & Q & ->). exists q, p. rewrite (SYM q p). auto. Qed.

  Lemma km1_fun s t d e : km1 s t d -> km1 s t e -> d = e.
  Proof.
    intros (p & q & P & Q & ->) (p' & q' & P' & Q' & ->). apply (collect_ok _ _ COL) in P, Q, P', Q'. congruence.
  Qed.

  Lemma pair_distance_ok st c : (do c1 <- lookup String.eqb coords (fst st); do c2 <- lookup String.eqb coords (snd st); Ok (st, dist c1 c2)) = Ok c ->
    fst c = st /\ km1 (fst st) (snd st) (snd c / 1000).
  Proof.
    destruct (lookup String.eqb coords (fst st)) as [p|] eqn:E1; [cbn [bind]|discriminate].
    destruct (lookup String.eqb coords (snd st)) as [q|] eqn:E2; [cbn [bind]|discriminate]. intros [= <-]. cbn [fst snd].
    split; [reflexivity|]. exists p, q. apply lookup_ok in E1, E2. rewrite <- !(collect_ok _ _ COL). auto.
  Qed.

  Lemma area_distance_ok h1 h2 v : area_distance dist coords h1 h2 = Ok v ->
    In (fst (snd v)) h1 /\ In (snd (snd v)) h2 /\ km1 (fst (snd v)) (snd (snd v)) (fst v) /\
    forall x y e, In x h1 -> In y h2 -> km1 x y e -> fst v <= e.
  Proof.
    unfold area_distance. destruct (mapM _ (list_prod h1 h2)) as [ds|] eqn:EM; [cbn [bind]|discriminate].
    destruct (min_item num_ltb ds) as [mi|] eqn:EI; [cbn [bind]|discriminate]. intros [= <-]. cbn [fst snd].
    apply mapM_ok2 in EM. apply min_item_num in EI. destruct EI as [I MIN].
    destruct (Forall2_in_r _ _ _ _ EM I) as (st & Ist & H). apply pair_distance_ok in H. destruct H as [E K].
    destruct st as [x y]. rewrite E. cbn [fst snd] in *. apply in_prod_iff in Ist. destruct Ist as [X Y].
    split; [exact X|]. split; [exact Y|]. split; [exact K|]. intros x' y' e X' Y' K'.
    destruct (Forall2_in_l _ _ _ (x', y') EM) as (c & Ic & H); [now apply in_prod|]. apply pair_distance_ok in H. destruct H as [_ K2]. cbn [fst snd] in K2.
    rewrite (km1_fun _ _ _ _ K' K2). apply MIN in Ic. lra.
  Qed.

  Lemma area_distance_total h1 h2 : h1 <> [] -> h2 <> [] -> (forall x, In x h1 \/ In x h2 -> exists p, located inv0 x p) ->
    exists v, area_distance dist coords h1 h2 = Ok v.
  Proof.
    intros N1 N2 L. unfold area_distance.
    match goal with |- context [mapM ?f ?l] => destruct (mapM_all f l) as [ds E] end.
    { intros [x y] I. apply in_prod_iff in I. destruct I as [X Y]. cbn [fst snd].
      destruct (L x (or_introl X)) as [p P]. destruct (L y (or_intror Y)) as [q Q]. apply (collect_ok _ _ COL) in P, Q. apply lookup_ok in P, Q.
      rewrite P. cbn [bind]. rewrite Q. cbn [bind]. eauto. }
    rewrite E. cbn [bind]. destruct (min_item_some num_ltb ds) as [mi EM].
    { apply mapM_ok2 in E. intros ->. inversion E as [EE|]. destruct h1 as [|a h1], h2 as [|b h2]; try congruence. discriminate. }
    rewrite EM. cbn. eauto.
  Qed.

  Variable hulls : list (string * list string).
  Hypothesis HULLS : area_hulls hull coords areas = Ok hulls.

  Lemma hulls_keys : map fst hulls = map fst areas.
  Proof.
    revert HULLS. clear. unfold area_hulls. revert hulls. induction areas as [|[a sts] l IH]; intros hulls H; cbn [mapM] in H.
    - injection H as <-. reflexivity.
    - cbn [fst snd] in H. destruct (area_hull hull coords sts); [cbn [bind] in H|discriminate].
      destruct (mapM _ l) eqn:E; [cbn [bind] in H|discriminate]. injection H as <-. cbn. f_equal. apply IH. reflexivity.
  Qed.

  Lemma hulls_corner a h : dget String.eqb hulls a = Some h -> forall s, In s h <-> corner hull inv0 areas a s.
  Proof.
    intros G s. apply (dget_In _ string_eqb_spec) in G. unfold area_hulls in HULLS. apply mapM_ok2 in HULLS.
    destruct (Forall2_in_r _ _ _ _ HULLS G) as ([b sts] & I & H). cbn [fst snd] in H.
    destruct (area_hull hull coords sts) as [h'|] eqn:EH; [cbn in H|discriminate]. injection H as -> ->.
    rewrite (area_hull_ok _ _ EH). unfold crn1, corner. split.
    - intros (p & v & i & X). exists sts, p, v, i. auto.
    - intros (sts' & p & v & i & I' & X). assert (sts' = sts).
      { apply (dget_nodup _ string_eqb_spec) in I, I'; try exact ND. congruence. }
      subst. exists p, v, i. exact X.
  Qed.

  Lemma corner_in a s : corner hull inv0 areas a s -> In a (map fst areas).
  Proof. intros (sts & _ & _ & _ & I & _). apply in_map with (f := fst) in I. exact I. Qed.

  Lemma distances_ok pairs : forall d0 d1, NoDup (map fst d0) -> distances_from dist coords hulls d0 pairs = Ok d1 ->
    NoDup (map fst d1) /\
    (forall a b, dget fset_eqb d0 (fset a b) <> None \/ (In (a, b) pairs \/ In (b, a) pairs) /\ a <> b -> exists v, dget fset_eqb d1 (fset a b) = Some v) /\
    (forall k v, dget fset_eqb d1 k = Some v -> dget fset_eqb d0 k = Some v \/
       exists a b h1 h2, k = fset a b /\ a <> b /\ dget String.eqb hulls a = Some h1 /\ dget String.eqb hulls b = Some h2 /\
         area_distance dist coords h1 h2 = Ok v).
  Proof.
    induction pairs as [|[a b] pairs IH]; intros d0 d1 N H.
    - cbn in H. injection H as <-. split; [exact N|]. split; [|auto]. intros a b [H|[[[]|[]] _]].
      destruct (dget fset_eqb d0 (fset a b)); [eauto|congruence].
    - cbn [distances_from] in H. destruct (dmem fset_eqb d0 (fset a b) || String.eqb a b) eqn:E.
      + destruct (IH _ _ N H) as (I1 & I2 & I3). split; [exact I1|]. split; [|exact I3].
        intros a' b' [X|[X NE]]; [apply I2; auto|]. cbn [In] in X.
        destruct (dget fset_eqb d0 (fset a' b')) eqn:EX; [apply I2; left; congruence|]. apply I2. right. split; [|exact NE].
        apply orb_true_iff in E. unfold dmem in E. rewrite String.eqb_eq in E.
        destruct X as [[X|X]|[X|X]]; [injection X as -> ->|auto|injection X as -> ->|auto]; exfalso.
        * rewrite EX in E. destruct E; [discriminate|congruence].
        * rewrite fset_sym, EX in E. destruct E; [discriminate|congruence].
      + apply orb_false_iff in E. destruct E as [E1 E2]. apply String.eqb_neq in E2.
        destruct (lookup String.eqb hulls a) as [h1|] eqn:L1; [cbn [bind] in H|discriminate].
        destruct (lookup String.eqb hulls b) as [h2|] eqn:L2; [cbn [bind] in H|discriminate].
        destruct (area_distance dist coords h1 h2) as [v0|] eqn:ED; [cbn [bind] in H|discriminate].
        apply lookup_ok in L1, L2.
        destruct (IH _ _ (dset_nodup _ fset_eqb_spec _ _ _ N) H) as (I1 & I2 & I3). split; [exact I1|].
        assert (DEC : forall k, k = fset a b \/ k <> fset a b).
        { intros k. destruct (fset_eqb k (fset a b)) eqn:EE; [left; now apply fset_eqb_spec|right]. intros ->.
          rewrite (proj2 (fset_eqb_spec _ _) eq_refl) in EE. discriminate. }
        split.
        * intros a' b' X. apply I2. destruct (DEC (fset a' b')) as [->|NK].
          -- left. rewrite (dget_dset_eq _ fset_eqb_spec). discriminate.
          -- rewrite (dget_dset_neq _ fset_eqb_spec) by exact NK. destruct X as [X|[X NE]]; [auto|]. right. split; [|exact NE].
             cbn [In] in X. destruct X as [[X|X]|[X|X]]; auto; exfalso; apply NK; injection X as -> ->; [reflexivity|apply fset_sym].
        * intros k v G. destruct (I3 k v G) as [G2|G2]; [|right; exact G2]. destruct (DEC k) as [->|NK].
          -- rewrite (dget_dset_eq _ fset_eqb_spec) in G2. injection G2 as <-. right. exists a, b, h1, h2. auto.
          -- rewrite (dget_dset_neq _ fset_eqb_spec) in G2 by exact NK. auto.
  Qed.

  Lemma distances_total pairs : (forall a b, In (a, b) pairs -> In a (map fst areas) /\ In b (map fst areas)) ->
    (forall a, In a (map fst areas) -> exists s, corner hull inv0 areas a s) ->
    forall d0, exists d1, distances_from dist coords hulls d0 pairs = Ok d1.
  Proof.
    intros P C. induction pairs as [|[a b] pairs IH]; intros d0; cbn [distances_from]; [eauto|].
    assert (IH' : forall d0, exists d1, distances_from dist coords hulls d0 pairs = Ok d1) by (apply IH; intros; apply P; now right).
    destruct (_ || _); [apply IH'|]. destruct (P a b (or_introl eq_refl)) as [Ia Ib].
    pose proof Ia as Ia'. pose proof Ib as Ib'. rewrite <- hulls_keys in Ia', Ib'.
    apply (dget_key _ string_eqb_spec) in Ia', Ib'. destruct Ia' as [h1 G1]. destruct Ib' as [h2 G2].
    rewrite (proj2 (lookup_ok _ _ _ _) G1), (proj2 (lookup_ok _ _ _ _) G2). cbn [bind].
    destruct (area_distance_total h1 h2) as [v E].
    - destruct (C a Ia) as [s S]. apply (hulls_corner _ _ G1) in S. intros ->. destruct S.
    - destruct (C b Ib) as [s S]. apply (hulls_corner _ _ G2) in S. intros ->. destruct S.
    - intros x [X|X]; [apply (hulls_corner _ _ G1) in X|apply (hulls_corner _ _ G2) in X]; destruct X as (sts & pts & vs & i & _ & F & _ & _ & E);
        destruct (Forall2_nth_r _ _ _ F _ _ E) as (p & _ & L); eauto.
    - rewrite E. cbn [bind]. apply IH'.
  Qed.

  Lemma start d1 : distances_from dist coords hulls [] (list_prod (dkeys areas) (dkeys areas)) = Ok d1 ->
    inv areas (corner hull inv0 areas) km1 m {| s_areas := areas; s_distance := d1; s_near := [] |} (fun c a => c = a /\ In a (map fst areas)).
  Proof.
    intros H. destruct (distances_ok _ [] _ (NoDup_nil _) H) as (I1 & I2 & I3).
    constructor; cbn [s_areas s_distance s_near].
    - exact ND.
    - intros c I. auto.
    - intros c a [-> I]. auto.
    - intros a I. exists a. auto.
    - intros c d a [-> _] [-> _]. reflexivity.
    - intros c l I x. split.
      + intros X. exists c, l. split; [exact I|]. split; [|exact X]. split; [reflexivity|]. apply in_map with (f := fst) in I. exact I.
      + intros (a & sa & I' & [-> _] & X). assert (l = sa); [|now subst].
        apply (dget_nodup _ string_eqb_spec) in I, I'; try exact ND. congruence.
    - exact I1.
    - intros c d Ic Id NE. destruct (I2 c d) as [v G].
      { right. split; [|exact NE]. left. apply in_prod; assumption. }
      exists v. split; [exact G|]. destruct (I3 _ _ G) as [X|(a & b & h1 & h2 & EK & NAB & G1 & G2 & ED)]; [discriminate|].
      apply area_distance_ok in ED. destruct ED as (X & Y & K & LO).
      apply (hulls_corner _ _ G1) in X. apply (hulls_corner _ _ G2) in Y.
      apply fset_eq in EK. destruct EK as [[-> ->]|[-> ->]].
      + split.
        * exists a, b. repeat split; auto.
        * intros a' b' x y e [-> _] [-> _] X' Y' K'. apply (LO x y e); [now apply (hulls_corner _ _ G1)|now apply (hulls_corner _ _ G2)|exact K'].
      + split.
        * exists b, a. repeat split; auto.
        * intros a' b' x y e [-> _] [-> _] X' Y' K'. apply (LO y x e); [now apply (hulls_corner _ _ G1)|now apply (hulls_corner _ _ G2)|now apply km1_sym].
    - intros k v I. apply (dget_nodup _ fset_eqb_spec) in I; [|exact I1]. destruct (I3 _ _ I) as [X|(a & b & h1 & h2 & EK & NAB & G1 & G2 & ED)]; [discriminate|].
      exists a, b. rewrite <- hulls_keys. repeat split; auto; apply (dget_key _ string_eqb_spec); eauto.
    - intros c a [-> _]. apply rst_refl.
    - discriminate.
    - intros c a b [-> _] [-> _]. congruence.
  Qed.
End Whole.

Lemma result hull dist flip areas m inv0 areas' near : NoDup (map fst areas) -> all_apart inv0 -> (forall p q, dist p q = dist q p) ->
  join_unconnected_areas hull dist flip areas m inv0 = Ok (areas', near) ->
  exists s' grp, areas' = s_areas s' /\ near = s_near s' /\
    inv areas (corner hull inv0 areas) (km1 dist inv0) m s' grp /\
    forall c d a b, grp c a -> grp d b -> c <> d -> ~ close_by hull dist inv0 areas m a b.
Proof.
  intros ND AP SY H. unfold join_unconnected_areas in H.
  destruct (collect_coordinates inv0) as [coords|] eqn:E1; [cbn [bind] in H|discriminate].
  destruct (area_hulls hull coords areas) as [hulls|] eqn:E2; [cbn [bind] in H|discriminate].
  destruct (distances_from _ _ _ _ _) as [d1|] eqn:E3; [cbn [bind] in H|discriminate].
  pose proof (start hull dist inv0 areas m coords E1 AP SY ND hulls E2 d1 E3) as I0.
  destruct (loop flip areas _ _ m (km1_sym dist inv0 SY) (List.length d1) _ _ I0) as (s' & grp' & J & I' & F); [cbn; lia|].
  rewrite J in H. cbn [bind] in H. injection H as <- <-. exists s', grp'. auto.
Qed.

Lemma success hull dist flip areas m inv0 : NoDup (map fst areas) -> all_apart inv0 -> (forall p q, dist p q = dist q p) ->
  has_hulls hull inv0 areas -> exists areas' near, join_unconnected_areas hull dist flip areas m inv0 = Ok (areas', near).
Proof.
  intros ND AP SY [CH HH]. unfold join_unconnected_areas. destruct (collect_total _ CH) as [coords E1]. rewrite E1. cbn [bind].
  destruct (mapM_all (fun a => do h <- area_hull hull coords (snd a); Ok (fst a, h)) areas) as [hulls E2].
  { intros [a sts] I. destruct (HH a sts I) as (pts & vs & F & EV & _ & BD). cbn [fst snd].
    destruct (area_hull_total hull inv0 coords E1 AP sts pts vs F EV BD) as [h Eh]. rewrite Eh. cbn. eauto. }
  unfold area_hulls. rewrite E2. cbn [bind].
  destruct (distances_total hull dist inv0 areas coords E1 AP ND hulls E2 (list_prod (dkeys areas) (dkeys areas))) with (d0 := @nil ((string * string) * (R * (string * string)))) as [d1 E3].
  - intros a b I. now apply in_prod_iff in I.
  - intros a Ia. apply in_map_iff in Ia. destruct Ia as ([a' sts] & <- & I). destruct (HH a' sts I) as (pts & vs & F & EV & NV & BD).
    destruct vs as [|i vs]; [congruence|]. inversion BD as [|? ? Bi _]; subst.
    destruct (nth_error sts i) as [s|] eqn:EN.
    + exists s. exists sts, pts, (i :: vs), i. repeat split; auto. now left.
    + apply nth_error_None in EN. rewrite (Forall2_len _ _ _ F) in EN. lia.
  - rewrite E3. cbn [bind].
    pose proof (start hull dist inv0 areas m coords E1 AP SY ND hulls E2 d1 E3) as I0.
    destruct (loop flip areas _ _ m (km1_sym dist inv0 SY) (List.length d1) _ _ I0) as (s' & grp' & J & I' & F); [cbn; lia|].
    rewrite J. cbn. eauto.
Qed.

(** ** the theorems *)
Lemma chained_same hull dist inv0 areas m s' grp :
  inv areas (corner hull inv0 areas) (km1 dist inv0) m s' grp ->
  (forall c d a b, grp c a -> grp d b -> c <> d -> ~ close_by hull dist inv0 areas m a b) ->
  forall a b, chained hull dist inv0 areas m a b -> (exists c, grp c a /\ grp c b) \/ a = b.
Proof.
  intros I F a b C. induction C as [a b (s & t & d & A & B & K & L)|a|a b C IH|a b c C1 IH1 C2 IH2].
  - left. destruct (v_all _ _ _ _ _ _ I a (corner_in _ _ _ _ _ A)) as [c Gc]. destruct (v_all _ _ _ _ _ _ I b (corner_in _ _ _ _ _ B)) as [d' Gd].
    destruct (string_dec c d') as [->|N]; [eauto|]. exfalso. apply (F c d' a b Gc Gd N). exists s, t, d. auto.
  - now right.
  - destruct IH as [(c & X & Y)| ->]; [left; eauto|now right].
  - destruct IH1 as [(x & X & Y)| ->]; [|exact IH2]. destruct IH2 as [(y & X' & Y')| <-]; [|left; eauto].
    left. pose proof (v_one _ _ _ _ _ _ I _ _ _ Y X'). subst. eauto.
Qed.

Lemma join_sets hull dist flip areas m inv0 areas' near : NoDup (map fst areas) -> all_apart inv0 -> (forall p q, dist p q = dist q p) ->
  join_unconnected_areas hull dist flip areas m inv0 = Ok (areas', near) ->
  NoDup (map fst areas') /\
  (forall a, In a (map fst areas) -> exists n, In n (map fst areas') /\ chained hull dist inv0 areas m n a) /\
  (forall n n', In n (map fst areas') -> In n' (map fst areas') -> chained hull dist inv0 areas m n n' -> n = n') /\
  (forall n l, In (n, l) areas' -> In n (map fst areas) /\
     forall s, In s l <-> exists a sa, In (a, sa) areas /\ chained hull dist inv0 areas m n a /\ In s sa).
Proof.
  intros ND AP SY H. destruct (result _ _ _ _ _ _ _ _ ND AP SY H) as (s' & grp & -> & -> & I & F).
  split; [apply (v_nodup _ _ _ _ _ _ I)|]. split; [|split].
  - intros a Ia. destruct (v_all _ _ _ _ _ _ I a Ia) as [c Gc]. exists c. split; [apply (v_grp _ _ _ _ _ _ I _ _ Gc)|]. apply (v_chain _ _ _ _ _ _ I _ _ Gc).
  - intros n n' In1 In2 C. destruct (chained_same _ _ _ _ _ _ _ I F _ _ C) as [(c & X & Y)|E]; [|exact E].
    pose proof (v_one _ _ _ _ _ _ I _ _ _ X (proj2 (v_names _ _ _ _ _ _ I _ In1))).
    pose proof (v_one _ _ _ _ _ _ I _ _ _ Y (proj2 (v_names _ _ _ _ _ _ I _ In2))). congruence.
  - intros n l Il. assert (In1 : In n (map fst (s_areas s'))) by (apply in_map with (f := fst) in Il; exact Il).
    destruct (v_names _ _ _ _ _ _ I _ In1) as [X G]. split; [exact X|]. intros s. rewrite (v_sets _ _ _ _ _ _ I n l Il s). split.
    + intros (a & sa & A & B & C). exists a, sa. split; [exact A|]. split; [|exact C]. apply (v_chain _ _ _ _ _ _ I _ _ B).
    + intros (a & sa & A & B & C). exists a, sa. split; [exact A|]. split; [|exact C].
      destruct (chained_same _ _ _ _ _ _ _ I F _ _ B) as [(c & Y & Z)| <-]; [|exact G].
      pose proof (v_one _ _ _ _ _ _ I _ _ _ Y G). subst. exact Z.
Qed.

Lemma join_far hull dist flip areas m inv0 areas' near : NoDup (map fst areas) -> all_apart inv0 -> (forall p q, dist p q = dist q p) ->
  join_unconnected_areas hull dist flip areas m inv0 = Ok (areas', near) ->
  forall n n' l l' a b s t d, In (n, l) areas' -> In (n', l') areas' -> n <> n' ->
    chained hull dist inv0 areas m n a -> chained hull dist inv0 areas m n' b ->
    corner hull inv0 areas a s -> corner hull inv0 areas b t -> distant dist inv0 s t d -> m < d.
Proof.
  intros ND AP SY H n n' l l' a b s t d I1 I2 NE C1 C2 A B K.
  destruct (join_sets _ _ _ _ _ _ _ _ ND AP SY H) as (_ & _ & U & _).
  destruct (Rlt_dec m d) as [L|L]; [exact L|exfalso]. apply NE. apply U.
  - apply in_map with (f := fst) in I1. exact I1.
  - apply in_map with (f := fst) in I2. exact I2.
  - apply rst_trans with a; [exact C1|]. apply rst_trans with b; [|apply rst_sym; exact C2]. apply rst_step. exists s, t, d. repeat split; auto. lra.
Qed.

Lemma join_near hull dist flip areas m inv0 areas' near : NoDup (map fst areas) -> all_apart inv0 -> (forall p q, dist p q = dist q p) ->
  join_unconnected_areas hull dist flip areas m inv0 = Ok (areas', near) ->
  (forall s t, dget String.eqb near s = Some t -> exists a b d, a <> b /\
     corner hull inv0 areas a s /\ corner hull inv0 areas b t /\ distant dist inv0 s t d /\ d <= m) /\
  (forall a b, In a (map fst areas) -> In b (map fst areas) -> a <> b -> chained hull dist inv0 areas m a b ->
     exists s t, corner hull inv0 areas a s /\ dget String.eqb near s = Some t).
Proof.
  intros ND AP SY H. destruct (result _ _ _ _ _ _ _ _ ND AP SY H) as (s' & grp & -> & -> & I & F). split.
  - intros s t G. destruct (v_near _ _ _ _ _ _ I _ _ G) as (a & b & d & X1 & _ & X). exists a, b, d. auto.
  - intros a b _ _ NE C. destruct (chained_same _ _ _ _ _ _ _ I F _ _ C) as [(c & X & Y)|E]; [|congruence].
    apply (v_some _ _ _ _ _ _ I c a b X Y NE).
Qed.

Lemma join_missing hull dist flip areas m inv0 a sts s : Forall (fun x => i_channels x <> []) inv0 -> hd_error areas = Some (a, sts) -> In s sts ->
  ~ In s (map full_name inv0) -> join_unconnected_areas hull dist flip areas m inv0 = Err KeyError.
Proof.
  intros F HE Is NI. unfold join_unconnected_areas. destruct (collect_total _ F) as [coords E]. rewrite E. cbn [bind].
  destruct areas as [|[a' sts'] l]; [discriminate|]. cbn in HE. injection HE as -> ->. cbn [area_hulls mapM fst snd].
  unfold area_hull. assert (M : mapM (lookup String.eqb coords) sts = Err KeyError).
  { induction sts as [|x sts IH]; [destruct Is|]. cbn [mapM]. destruct Is as [->|Is].
    - unfold lookup. destruct (dget String.eqb coords s) eqn:G; [|reflexivity]. exfalso. apply NI.
      apply (collect_ok _ _ E) in G. destruct G as (b & x & r & c & cs & -> & <- & _). rewrite map_app. apply in_or_app. right. now left.
    - unfold lookup at 1. destruct (dget String.eqb coords x); [|reflexivity]. cbn [bind]. rewrite (IH Is). reflexivity. }
  rewrite M. reflexivity.
Qed.

Lemma join_small hull dist flip areas m inv0 a sts : all_apart inv0 -> Forall (fun x => i_channels x <> []) inv0 ->
  (forall pts, (List.length pts < 3)%nat -> hull pts = Err OtherError) ->
  (forall pts vs, hull pts = Ok vs -> Forall (fun i => (i < List.length pts)%nat) vs) ->
  (forall pts e, hull pts = Err e -> e = OtherError) ->
  (forall a sts s, In (a, sts) areas -> In s sts -> In s (map full_name inv0)) ->
  In (a, sts) areas -> (List.length sts < 3)%nat ->
  join_unconnected_areas hull dist flip areas m inv0 = Err OtherError.
Proof.
  intros AP CH H3 HB HE AL IA LT. unfold join_unconnected_areas. destruct (collect_total _ CH) as [coords E]. rewrite E. cbn [bind].
  assert (LOC : forall s, In s (map full_name inv0) -> exists p, located inv0 s p).
  { clear - CH. induction inv0 as [|x l IH]; intros s I; [destruct I|]. inversion CH; subst.
    destruct (in_dec string_dec s (map full_name l)) as [J|J].
    - destruct (IH H2 s J) as (p & b & y & r & c & cs & -> & Z). exists p, (x :: b), y, r, c, cs. split; [reflexivity|exact Z].
    - destruct I as [<-|I]; [|contradiction]. destruct (i_channels x) as [|c cs] eqn:EC; [congruence|].
      exists (or_num (fst c) (i_lat x), or_num (snd c) (i_lon x)), [], x, l, c, cs. split; [reflexivity|]. split; [reflexivity|].
      split; [apply Forall_forall; intros y Y EQ; apply J; rewrite <- EQ; now apply in_map|]. split; [exact EC|]. cbn [fst snd].
      split; apply or_num_spec; reflexivity. }
  assert (PT : forall sts, (forall s, In s sts -> In s (map full_name inv0)) -> exists pts, Forall2 (located inv0) sts pts).
  { clear - LOC. induction sts as [|s sts IH]; intros H; [exists []; constructor|].
    destruct (LOC s (H s (or_introl eq_refl))) as [p P]. destruct IH as [pts PS]; [intros; apply H; now right|]. exists (p :: pts). now constructor. }
  assert (M : area_hulls hull coords areas = Err OtherError).
  { assert (ALL : forall b sb, In (b, sb) areas -> (exists h, area_hull hull coords sb = Ok h) \/ area_hull hull coords sb = Err OtherError).
    { intros b sb IB. destruct (PT sb (fun s => AL b sb s IB)) as [pts F]. destruct (hull pts) as [vs|e] eqn:EV.
      - left. apply (area_hull_total hull inv0 coords E AP sb pts vs F EV (HB _ _ EV)).
      - right. unfold area_hull. rewrite (proj2 (points_located inv0 coords E sb pts) F). cbn [bind]. rewrite EV. cbn [bind]. now rewrite (HE _ _ EV). }
    assert (ERR : area_hull hull coords sts = Err OtherError).
    { destruct (PT sts (fun s => AL a sts s IA)) as [pts F]. unfold area_hull. rewrite (proj2 (points_located inv0 coords E sts pts) F). cbn [bind].
      rewrite H3; [reflexivity|]. now rewrite <- (Forall2_len _ _ _ F). }
    clear - ALL ERR IA. unfold area_hulls. induction areas as [|[b sb] l IH]; [destruct IA|]. cbn [mapM fst snd].
    destruct IA as [IA|IA].
    - injection IA as -> ->. rewrite ERR. reflexivity.
    - destruct (ALL b sb (or_introl eq_refl)) as [[h Eh]|Eh]; rewrite Eh; [|reflexivity]. cbn [bind].
      rewrite IH; [reflexivity|exact IA|intros b1 sb1 I1; apply (ALL b1); now right]. }
  rewrite M. reflexivity.
Qed.

Lemma collect_channels inv0 :
  (Forall (fun x => i_channels x <> []) inv0 -> exists coords, collect_coordinates inv0 = Ok coords) /\
  (~ Forall (fun x => i_channels x <> []) inv0 -> collect_coordinates inv0 = Err IndexError).
Proof.
  split; [apply collect_total|]. unfold collect_coordinates. generalize (@nil (string * (R * R))).
  induction inv0 as [|x l IH]; intros c0 H.
  - exfalso. apply H. constructor.
  - cbn [collect_coordinates_from]. destruct (i_channels x) eqn:E; [reflexivity|]. apply IH. intros F. apply H. constructor; [congruence|exact F].
Qed.
