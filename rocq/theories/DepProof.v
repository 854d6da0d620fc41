(** Lemmas on the data drawn by plots. *)
From Coq Require Import String List Bool Reals Lra Lia.
From Verif Require Import Base Pyf PyfOps SourceModel DepModel DepSpec.
Import ListNotations.
Open Scope R_scope.

Lemma nth_error_combine : forall {A B} (l : list A) (m : list B) i a b,
  nth_error l i = Some a -> nth_error m i = Some b -> nth_error (combine l m) i = Some (a, b).
Proof.
  intros A B l. induction l as [| x l IH]; intros [| y m] [| i] a b; cbn; intros; try discriminate.
  - congruence.
  - apply IH; assumption.
Qed.

Lemma nth_error_combine_inv : forall {A B} (l : list A) (m : list B) i p,
  nth_error (combine l m) i = Some p -> nth_error l i = Some (fst p) /\ nth_error m i = Some (snd p).
Proof.
  intros A B l. induction l as [| x l IH]; intros [| y m] [| i] p; cbn; intros E; try discriminate.
  - injection E as <-. auto.
  - apply IH; assumption.
Qed.

Lemma zip_ok : forall {A B C} (op : A -> B -> C) a b, length a = length b ->
  exists r, zip op a b = Ok r /\ length r = length a /\
    forall i x y, nth_error a i = Some x -> nth_error b i = Some y -> nth_error r i = Some (op x y).
Proof.
  intros A B C op a b H. unfold zip. rewrite H, Nat.eqb_refl. eexists. split; [reflexivity |].
  split; [rewrite map_length, combine_length; lia |]. intros i x y Hx Hy.
  rewrite nth_error_map, (nth_error_combine _ _ _ _ _ Hx Hy). reflexivity.
Qed.

Lemma at2_some : forall rows i j x, at2 rows i j = Some x ->
  exists row, nth_error rows i = Some row /\ nth_error row j = Some x.
Proof. unfold at2. intros rows i j x. destruct (nth_error rows i) as [row |]; [eauto | discriminate]. Qed.

Lemma at2_of : forall rows i j row x, nth_error rows i = Some row -> nth_error row j = Some x -> at2 rows i j = Some x.
Proof. unfold at2. intros rows i j row x H. rewrite H. auto. Qed.

Lemma nth_exists : forall {A} (l : list A) i, (i < length l)%nat -> exists x, nth_error l i = Some x.
Proof. intros A l i H. apply nth_error_Some in H. destruct (nth_error l i); [eauto | congruence]. Qed.

Lemma nth_lt : forall {A} (l : list A) i x, nth_error l i = Some x -> (i < length l)%nat.
Proof. intros. apply nth_error_Some. congruence. Qed.

(** elementwise operations on arrays with two axes *)
Lemma scalar2 : forall op rows x ne nf, shape2 ne nf rows ->
  exists r, with_scalar op (N2 rows) x = N2 r /\ shape2 ne nf r /\
    forall i j a, at2 rows i j = Some a -> at2 r i j = Some (op a (FNum x)).
Proof.
  intros op rows x ne nf [H1 H2]. eexists. split; [reflexivity |]. split.
  - split; [rewrite map_length; assumption |]. intros row I. apply in_map_iff in I. destruct I as [r [<- I]].
    rewrite map_length. apply H2, I.
  - intros i j a E. apply at2_some in E. destruct E as [row [E1 E2]].
    apply (at2_of _ i j (map (fun a => op a (FNum x)) row)); rewrite nth_error_map.
    + rewrite E1. reflexivity.
    + rewrite E2. reflexivity.
Qed.

Lemma row2 : forall op rows x ne nf, shape2 ne nf rows -> length x = nf ->
  exists r, with_row op (N2 rows) x = Ok (N2 r) /\ shape2 ne nf r /\
    forall i j a f, at2 rows i j = Some a -> nth_error x j = Some f -> at2 r i j = Some (op a (FNum f)).
Proof.
  intros op rows x ne nf [H1 H2] Hx. unfold with_row. revert ne H1. induction rows as [| row rows IH]; intros ne H1.
  - exists []. split; [reflexivity |]. split; [split; [assumption | intros ? []] |].
    intros i j a f E. destruct i; discriminate.
  - destruct (IH ltac:(intros; apply H2; right; assumption) (length rows) eq_refl) as [r [E [S P]]].
    destruct (zip_ok (fun a b => op a (FNum b)) row x) as [z [Ez [Lz Pz]]].
    { rewrite Hx. apply H2. left; reflexivity. }
    exists (z :: r). cbn [mapM]. rewrite Ez. cbn [bind].
    destruct (mapM _ rows) as [r' |] eqn:Em; [| discriminate E]. cbn [bind] in *.
    assert (r' = r) by congruence. subst r'. split; [reflexivity |]. split.
    + destruct S as [S1 S2]. split; [cbn in *; lia |]. intros y [<- | I].
      * rewrite Lz. apply H2. left; reflexivity.
      * apply S2, I.
    + intros [| i] j a f Ea Ef.
      * cbn in *. apply Pz; assumption.
      * apply P; assumption.
Qed.

Lemma column2 : forall op rows x ne nf, shape2 ne nf rows -> length x = ne ->
  exists r, with_column op (N2 rows) x = Ok (N2 r) /\ shape2 ne nf r /\
    forall i j a v, at2 rows i j = Some a -> nth_error x i = Some v -> at2 r i j = Some (op a (FNum v)).
Proof.
  intros op rows x ne nf [H1 H2] Hx. unfold with_column.
  destruct (zip_ok (fun row b => map (fun a => op a (FNum b)) row) rows x ltac:(lia)) as [z [Ez [Lz Pz]]].
  exists z. rewrite Ez. split; [reflexivity |]. split.
  - split; [lia |]. intros row I. apply In_nth_error in I. destruct I as [i I].
    destruct (nth_exists rows i) as [rw Er]; [apply nth_lt in I; lia |].
    destruct (nth_exists x i) as [v Ev]; [apply nth_lt in I; lia |].
    rewrite (Pz i rw v Er Ev) in I. injection I as <-. rewrite map_length. apply H2. eapply nth_error_In; eassumption.
  - intros i j a v Ea Ev. apply at2_some in Ea. destruct Ea as [row [E1 E2]].
    apply (at2_of _ i j _ _ (Pz i row v E1 Ev)). rewrite nth_error_map, E2. reflexivity.
Qed.

Lemma velocity2 : forall op rows v0 v ne nf, shape2 ne nf rows -> velocities ne v0 -> velocity_of v0 = Ok v ->
  exists r, with_velocity op (N2 rows) v = Ok (N2 r) /\ shape2 ne nf r /\
    forall i j a w, at2 rows i j = Some a -> velocity_at v0 i = Some w -> at2 r i j = Some (op a (FNum w)).
Proof.
  intros op rows v0 v ne nf S V E. destruct v0; cbn in V, E; try contradiction; injection E as <-; cbn [with_velocity].
  - destruct (scalar2 op rows x ne nf S) as [r [E [Sr P]]]. exists r. rewrite E. split; [reflexivity |]. split; [assumption |].
    intros i j a w Ea Ew. cbn in Ew. injection Ew as <-. apply P; assumption.
  - destruct (column2 op rows l ne nf S V) as [r [E [Sr P]]]. exists r. auto.
Qed.

Lemma omega_nth : forall fs j f, nth_error fs j = Some f -> nth_error (map (fun f => 2 * PI * f) fs) j = Some (2 * PI * f).
Proof. intros fs j f H. rewrite nth_error_map, H. reflexivity. Qed.

Lemma velocity_ok : forall ne v0, velocities ne v0 -> exists v, velocity_of v0 = Ok v.
Proof. intros ne [] H; cbn in *; try contradiction; eauto. Qed.

Lemma PI_f : forall f, f <> 0 -> 2 * PI * f <> 0.
Proof. intros f H. pose proof PI_RGT_0. apply Rmult_integral_contrapositive_currified; [lra | assumption]. Qed.

(** the value of a quantity *)
Definition value_of (q : string) (x : pyf) (f v : R) : pyf :=
  (match q with
  | "lsc" => fdiv (fdiv (FNum 1) x) (FNum 1000)
  | "Qsc" => fdiv (fmul x (FNum v)) (FNum (2 * PI * f))
  | "li" => fdiv (fdiv (FNum v) x) (FNum 1000)
  | "Qi" => fdiv x (FNum (2 * PI * f))
  | _ => x
  end)%string.

Lemma value_derived : forall q x f v, In q quantities -> x <> 0 -> f <> 0 ->
  exists y, value_of q (FNum x) f v = FNum y /\ derived q x f v y.
Proof.
  intros q x f v I Hx Hf. pose proof (PI_f f Hf) as Hp. pose proof PI_RGT_0.
  cbn in I. repeat destruct I as [<- | I]; [.. | contradiction]; cbn -[PI IZR fdiv fmul];
    try (eexists; split; [reflexivity | reflexivity]).
  - rewrite fdiv_num by assumption. rewrite fdiv_num by lra. eexists. split; [reflexivity |]. field. assumption.
  - cbn [fmul]. rewrite fdiv_num by assumption. eexists. split; [reflexivity |]. field. split; lra.
  - rewrite fdiv_num by assumption. rewrite fdiv_num by lra. eexists. split; [reflexivity |]. field. assumption.
  - rewrite fdiv_num by assumption. eexists. split; [reflexivity |]. field. split; lra.
Qed.

Lemma value_nan : forall q f v, In q quantities -> value_of q FNan f v = FNan.
Proof.
  intros q f v I. cbn in I. repeat destruct I as [<- | I]; [.. | contradiction]; reflexivity.
Qed.

Lemma calc2 : forall q rows fs v0 ne nf,
  In q quantities -> shape2 ne nf rows -> length fs = nf -> velocities ne v0 ->
  exists r, calc_dependent q (N2 rows) (AArray fs) v0 = Ok (Some (N2 r)) /\ shape2 ne nf r /\
    forall i j x f v, at2 rows i j = Some x -> nth_error fs j = Some f -> velocity_at v0 i = Some v ->
      at2 r i j = Some (value_of q x f v).
Proof.
  intros q rows fs v0 ne nf I S F V. destruct (velocity_ok ne v0 V) as [vv Ev]. unfold calc_dependent. rewrite Ev. cbn [bind].
  assert (FL : length (map (fun f => 2 * PI * f) fs) = nf) by (rewrite map_length; assumption).
  cbn in I. repeat destruct I as [<- | I]; [.. | contradiction];
    cbn -[PI IZR with_scalar with_velocity with_omega value_of bind fdiv fmul];
    try (exists rows; split; [reflexivity |]; split; [assumption |]; intros; assumption).
  - destruct (scalar2 (fun a _ => fdiv (FNum 1) a) rows 0 ne nf S) as [r [E [Sr P]]]. rewrite E.
    destruct (scalar2 fdiv r 1000 ne nf Sr) as [r2 [E2 [Sr2 P2]]]. rewrite E2. exists r2.
    split; [reflexivity |]. split; [assumption |]. intros i j x f v Ex _ _. rewrite (P2 i j _ (P i j _ Ex)). reflexivity.
  - destruct (velocity2 fmul rows v0 vv ne nf S V Ev) as [r [E [Sr P]]]. rewrite E. cbn [bind with_omega].
    destruct (row2 fdiv r _ ne nf Sr FL) as [r2 [E2 [Sr2 P2]]]. rewrite E2. cbn [bind]. exists r2.
    split; [reflexivity |]. split; [assumption |]. intros i j x f v Ex Ef Evv.
    rewrite (P2 i j _ _ (P i j _ _ Ex Evv) (omega_nth _ _ _ Ef)). reflexivity.
  - destruct (velocity2 (fun a b => fdiv b a) rows v0 vv ne nf S V Ev) as [r [E [Sr P]]]. rewrite E. cbn [bind].
    destruct (scalar2 fdiv r 1000 ne nf Sr) as [r2 [E2 [Sr2 P2]]]. rewrite E2. exists r2.
    split; [reflexivity |]. split; [assumption |]. intros i j x f v Ex _ Evv. rewrite (P2 i j _ (P i j _ _ Ex Evv)). reflexivity.
  - cbn [with_omega]. destruct (row2 fdiv rows _ ne nf S FL) as [r2 [E2 [Sr2 P2]]]. rewrite E2. cbn [bind]. exists r2.
    split; [reflexivity |]. split; [assumption |]. intros i j x f v Ex Ef _.
    rewrite (P2 i j _ _ Ex (omega_nth _ _ _ Ef)). reflexivity.
Qed.

Lemma calc2_good : forall q rows fs v0 ne nf,
  In q quantities -> shape2 ne nf rows -> length fs = nf -> velocities ne v0 ->
  exists r, calc_dependent q (N2 rows) (AArray fs) v0 = Ok (Some (N2 r)) /\ shape2 ne nf r /\
    (forall i j x f v, at2 rows i j = Some (FNum x) -> x <> 0 -> nth_error fs j = Some f -> f <> 0 -> velocity_at v0 i = Some v ->
      exists y, at2 r i j = Some (FNum y) /\ derived q x f v y) /\
    (forall i j, at2 rows i j = Some FNan -> at2 r i j = Some FNan).
Proof.
  intros q rows fs v0 ne nf I S F V. destruct (calc2 q rows fs v0 ne nf I S F V) as [r [E [Sr P]]].
  exists r. split; [assumption |]. split; [assumption |]. split.
  - intros i j x f v Ex Hx Ef Hf Ev. destruct (value_derived q x f v I Hx Hf) as [y [Y D]].
    exists y. rewrite (P i j _ f v Ex Ef Ev), Y. auto.
  - intros i j Ex. pose proof (at2_some _ _ _ _ Ex) as [row [E1 E2]]. destruct S as [S1 S2].
    destruct (nth_exists fs j) as [f Ef].
    { apply nth_lt in E2. rewrite (S2 row (nth_error_In _ _ E1)) in E2. lia. }
    assert (exists v, velocity_at v0 i = Some v) as [v Ev].
    { destruct v0; cbn in *; try contradiction; [eauto |]. apply nth_exists. apply nth_lt in E1. lia. }
    rewrite (P i j _ f v Ex Ef Ev). rewrite value_nan by assumption. reflexivity.
Qed.

(** one axis: results of one event, one velocity *)
Lemma calc1_good : forall q l fs v,
  In q quantities -> length fs = length l ->
  exists r, calc_dependent q (N1 l) (AArray fs) (AScalar v) = Ok (Some (N1 r)) /\ length r = length l /\
    (forall j x f, nth_error l j = Some (FNum x) -> x <> 0 -> nth_error fs j = Some f -> f <> 0 ->
      exists y, nth_error r j = Some (FNum y) /\ derived q x f v y) /\
    (forall j, nth_error l j = Some FNan -> nth_error r j = Some FNan).
Proof.
  intros q l fs v I F.
  assert (G : exists r, calc_dependent q (N1 l) (AArray fs) (AScalar v) = Ok (Some (N1 r)) /\ length r = length l /\
    forall j x f, nth_error l j = Some x -> nth_error fs j = Some f -> nth_error r j = Some (value_of q x f v)).
  { unfold calc_dependent. cbn [velocity_of bind]. pose proof I as I2.
    cbn in I. repeat destruct I as [<- | I]; [.. | contradiction];
      cbn -[PI IZR with_row value_of bind fdiv fmul map];
      try (exists l; split; [reflexivity |]; split; [reflexivity |]; intros; assumption).
    - eexists. split; [reflexivity |]. split; [rewrite !map_length; reflexivity |]. intros j x f Ex _.
      rewrite !nth_error_map, Ex. reflexivity.
    - destruct (zip_ok (fun a b => fdiv a (FNum b)) (map (fun a => fmul a (FNum v)) l) (map (fun f => 2 * PI * f) fs)) as [z [Ez [Lz Pz]]].
      { rewrite !map_length. lia. }
      cbn [bind]. unfold with_row. rewrite Ez. cbn [bind]. exists z. split; [reflexivity |]. split; [rewrite Lz, map_length; reflexivity |].
      intros j x f Ex Ef. rewrite (Pz j (fmul x (FNum v)) (2 * PI * f)).
      + reflexivity.
      + rewrite nth_error_map, Ex. reflexivity.
      + apply omega_nth, Ef.
    - eexists. split; [reflexivity |]. split; [rewrite !map_length; reflexivity |]. intros j x f Ex _.
      rewrite !nth_error_map, Ex. reflexivity.
    - destruct (zip_ok (fun a b => fdiv a (FNum b)) l (map (fun f => 2 * PI * f) fs)) as [z [Ez [Lz Pz]]].
      { rewrite map_length. lia. }
      cbn [bind]. unfold with_row. rewrite Ez. cbn [bind]. exists z. split; [reflexivity |]. split; [assumption |].
      intros j x f Ex Ef. rewrite (Pz j x (2 * PI * f) Ex (omega_nth _ _ _ Ef)). reflexivity. }
  destruct G as [r [E [L P]]]. exists r. split; [assumption |]. split; [assumption |]. split.
  - intros j x f Ex Hx Ef Hf. destruct (value_derived q x f v I Hx Hf) as [y [Y D]]. exists y.
    rewrite (P j _ f Ex Ef), Y. auto.
  - intros j Ex. destruct (nth_exists fs j) as [f Ef]; [apply nth_lt in Ex; lia |].
    rewrite (P j _ f Ex Ef), value_nan by assumption. reflexivity.
Qed.

(** without velocity *)
Lemma calc_none : forall q val freq, calc_dependent q val freq ANone = Err TypeError.
Proof. reflexivity. Qed.

(** ** Limits *)

Lemma limit_lt : forall a b, 0 < a -> 0 < b -> (a < b <-> Rpower a (3 / 2) / Rpower b (1 / 2) < a).
Proof.
  intros a b Ha Hb.
  assert (E : Rpower a (3 / 2) = a * Rpower a (1 / 2)).
  { replace (3 / 2) with (1 + 1 / 2) by lra. rewrite Rpower_plus, Rpower_1 by assumption. reflexivity. }
  rewrite E. pose proof (exp_pos (1 / 2 * ln a)) as Pa. pose proof (exp_pos (1 / 2 * ln b)) as Pb.
  fold (Rpower a (1 / 2)) in Pa. fold (Rpower b (1 / 2)) in Pb.
  assert (K : a < b <-> Rpower a (1 / 2) < Rpower b (1 / 2)).
  { split; intros H.
    - apply Rlt_Rpower_l; lra.
    - destruct (Rlt_le_dec a b) as [| G]; [assumption |]. exfalso.
      destruct G as [G | G].
      + assert (Rpower b (1 / 2) < Rpower a (1 / 2)) by (apply Rlt_Rpower_l; lra). lra.
      + subst. lra. }
  rewrite K. split; intros H.
  - apply (Rmult_lt_reg_r (Rpower b (1 / 2))); [assumption |]. unfold Rdiv. rewrite Rmult_assoc, Rinv_l by lra. nra.
  - apply (Rmult_lt_compat_r (Rpower b (1 / 2))) in H; [| assumption]. unfold Rdiv in H. rewrite Rmult_assoc, Rinv_l in H by lra. nra.
Qed.

Lemma limit_lt1 : forall a b, 0 < a -> 0 < b -> a < b -> Rpower a (3 / 2) / Rpower b (1 / 2) < a.
Proof. intros a b Ha Hb H. apply (proj1 (limit_lt a b Ha Hb) H). Qed.

Lemma limit_gt : forall a b, 0 < a -> 0 < b -> b < a -> a < Rpower a (3 / 2) / Rpower b (1 / 2).
Proof.
  intros a b Ha Hb H.
  assert (E : Rpower a (3 / 2) = a * Rpower a (1 / 2)).
  { replace (3 / 2) with (1 + 1 / 2) by lra. rewrite Rpower_plus, Rpower_1 by assumption. reflexivity. }
  rewrite E. pose proof (exp_pos (1 / 2 * ln b)) as Pb. fold (Rpower b (1 / 2)) in Pb.
  assert (Rpower b (1 / 2) < Rpower a (1 / 2)) by (apply Rlt_Rpower_l; lra).
  apply (Rmult_lt_reg_r (Rpower b (1 / 2))); [assumption |]. unfold Rdiv. rewrite (Rmult_assoc _ (/ _)), Rinv_l by lra. nra.
Qed.

Lemma limit_ln : forall a b, ln (Rpower a (3 / 2) / Rpower b (1 / 2)) = ln a - (ln b - ln a) / 2.
Proof.
  intros a b. unfold Rdiv at 1. rewrite ln_mult; [| apply exp_pos | apply Rinv_0_lt_compat, exp_pos].
  rewrite ln_Rinv by apply exp_pos. unfold Rpower. rewrite !ln_exp. lra.
Qed.

(** lists from both ends *)
Lemma freqlim_some : forall f0 f1 l lim, freqlim (f0 :: f1 :: l) = Some lim ->
  exists e0 e1 m, rev (f0 :: f1 :: l) = e0 :: e1 :: m /\
    fst lim = Rpower f0 (3 / 2) / Rpower f1 (1 / 2) /\ snd lim = Rpower e0 (3 / 2) / Rpower e1 (1 / 2).
Proof.
  intros f0 f1 l lim. unfold freqlim. destruct (rev (f0 :: f1 :: l)) as [| e0 [| e1 m]] eqn:E; try discriminate.
  intros H. exists e0, e1, m. split; [reflexivity |]. assert (lim = (Rpower f0 (3 / 2) / Rpower f1 (1 / 2), Rpower e0 (3 / 2) / Rpower e1 (1 / 2))) by congruence.
  subst. auto.
Qed.

Lemma increasing_head : forall l a, increasing (a :: l) -> forall x, In x l -> a < x.
Proof.
  intros l. induction l as [| b l IH]; intros a H x I; [contradiction |]. destruct H as [H1 H2].
  destruct I as [<- | I]; [assumption |]. apply Rlt_trans with b; [assumption |]. apply IH; assumption.
Qed.
Lemma decreasing_head : forall l a, decreasing (a :: l) -> forall x, In x l -> x < a.
Proof.
  intros l. induction l as [| b l IH]; intros a H x I; [contradiction |]. destruct H as [H1 H2].
  destruct I as [<- | I]; [assumption |]. apply Rlt_trans with b; [| assumption]. apply IH; assumption.
Qed.

Lemma increasing_app : forall l x, increasing (l ++ [x]) -> increasing l /\ forall y, In y l -> y < x.
Proof.
  intros l. induction l as [| a l IH]; intros x H; [split; [exact I | intros ? []] |].
  assert (T : increasing (l ++ [x])) by (destruct l; cbn in *; tauto).
  destruct (IH x T) as [A B]. split.
  - destruct l as [| b l]; [exact I |]. cbn in H. split; [apply H | assumption].
  - intros y [<- | J]; [| apply B; assumption]. apply (increasing_head (l ++ [x])); [assumption |]. apply in_or_app. right; left; reflexivity.
Qed.

Lemma increasing_rev : forall l, increasing l -> decreasing (rev l).
Proof.
  intros l. induction l as [| x l IH] using rev_ind; intros H; [exact I |]. rewrite rev_app_distr. cbn [rev app].
  destruct (increasing_app l x H) as [A B]. specialize (IH A). destruct (rev l) as [| y m] eqn:E; [exact I |].
  split; [| assumption]. apply B. apply in_rev. rewrite E. left; reflexivity.
Qed.

Lemma decreasing_app : forall l x, decreasing (l ++ [x]) -> decreasing l /\ forall y, In y l -> x < y.
Proof.
  intros l. induction l as [| a l IH]; intros x H; [split; [exact I | intros ? []] |].
  assert (T : decreasing (l ++ [x])) by (destruct l; cbn in *; tauto).
  destruct (IH x T) as [A B]. split.
  - destruct l as [| b l]; [exact I |]. cbn in H. split; [apply H | assumption].
  - intros y [<- | J]; [| apply B; assumption]. apply (decreasing_head (l ++ [x])); [assumption |]. apply in_or_app. right; left; reflexivity.
Qed.

Lemma decreasing_rev : forall l, decreasing l -> increasing (rev l).
Proof.
  intros l. induction l as [| x l IH] using rev_ind; intros H; [exact I |]. rewrite rev_app_distr. cbn [rev app].
  destruct (decreasing_app l x H) as [A B]. specialize (IH A). destruct (rev l) as [| y m] eqn:E; [exact I |].
  split; [| assumption]. apply B. apply in_rev. rewrite E. left; reflexivity.
Qed.

Lemma freqlim_exists : forall freq, freqlim freq <> None <-> (2 <= length freq)%nat.
Proof.
  intros freq. unfold freqlim. split.
  - destruct freq as [| f0 [| f1 l]]; cbn; try congruence. intros _. lia.
  - destruct freq as [| f0 [| f1 l]]; cbn [length]; try lia. intros _.
    assert (L : length (rev (f0 :: f1 :: l)) = S (S (length l))) by (rewrite rev_length; reflexivity).
    destruct (rev (f0 :: f1 :: l)) as [| e0 [| e1 m]]; cbn in L; try lia. discriminate.
Qed.

Lemma limits_increasing : forall freq lim, increasing freq -> (forall f, In f freq -> 0 < f) ->
  freqlim freq = Some lim -> forall f, In f freq -> fst lim < f < snd lim.
Proof.
  intros freq lim Inc Pos H f I. destruct freq as [| f0 [| f1 l]]; [discriminate | discriminate |].
  destruct (freqlim_some _ _ _ _ H) as [e0 [e1 [m [E [H1 H2]]]]]. rewrite H1, H2.
  pose proof (increasing_rev _ Inc) as Dec. rewrite E in Dec.
  assert (Ie0 : In e0 (f0 :: f1 :: l)) by (apply in_rev; rewrite E; left; reflexivity).
  assert (Ie1 : In e1 (f0 :: f1 :: l)) by (apply in_rev; rewrite E; right; left; reflexivity).
  split.
  - apply Rlt_le_trans with f0.
    + apply limit_lt1; [apply Pos; left; reflexivity | apply Pos; right; left; reflexivity |]. destruct Inc; assumption.
    + destruct I as [<- | I]; [lra |]. left. apply (increasing_head _ _ Inc); assumption.
  - apply Rle_lt_trans with e0.
    + apply in_rev in I. rewrite E in I. destruct I as [<- | I]; [lra |]. left. apply (decreasing_head _ _ Dec); assumption.
    + apply limit_gt; [apply Pos; assumption | apply Pos; assumption |]. destruct Dec; assumption.
Qed.

Lemma limits_decreasing : forall freq lim, decreasing freq -> (forall f, In f freq -> 0 < f) ->
  freqlim freq = Some lim -> forall f, In f freq -> snd lim < f < fst lim.
Proof.
  intros freq lim Dec Pos H f I. destruct freq as [| f0 [| f1 l]]; [discriminate | discriminate |].
  destruct (freqlim_some _ _ _ _ H) as [e0 [e1 [m [E [H1 H2]]]]]. rewrite H1, H2.
  pose proof (decreasing_rev _ Dec) as Inc. rewrite E in Inc.
  assert (Ie0 : In e0 (f0 :: f1 :: l)) by (apply in_rev; rewrite E; left; reflexivity).
  assert (Ie1 : In e1 (f0 :: f1 :: l)) by (apply in_rev; rewrite E; right; left; reflexivity).
  split.
  - apply Rlt_le_trans with e0.
    + apply limit_lt1; [apply Pos; assumption | apply Pos; assumption |]. destruct Inc; assumption.
    + apply in_rev in I. rewrite E in I. destruct I as [<- | I]; [lra |]. left. apply (increasing_head _ _ Inc); assumption.
  - apply Rle_lt_trans with f0.
    + destruct I as [<- | I]; [lra |]. left. apply (decreasing_head _ _ Dec); assumption.
    + apply limit_gt; [apply Pos; left; reflexivity | apply Pos; right; left; reflexivity |]. destruct Dec; assumption.
Qed.

(** ** Spectra *)

Lemma either_first : forall a b d r, (match either a b with Some x => x | None => d end) = r -> first_given a b d r.
Proof.
  intros a b d r. unfold either, first_given. destruct a as [x |].
  - destruct (Req_EM_T x 0) as [-> | N].
    + intros <-. right. split; [right; reflexivity |]. destruct b; eauto.
    + intros <-. left. eauto.
  - intros <-. right. split; [left; reflexivity |]. destruct b; eauto.
Qed.


Lemma sds_ok : forall freq omM result method smo colored,
  method <> Some "mean"%string -> length freq = length omM -> (exists o, In o omM /\ o <> FNan) ->
  exists d, plot_sds freq omM result method (Some smo) colored = Ok (Some d) /\
    length (d_points d) = length freq /\
    (forall i f o, nth_error freq i = Some f -> nth_error omM i = Some o -> nth_error (d_points d) i = Some (f, o)).
Proof.
  intros freq omM result method smo colored Hm Hl [o [Io Ho]]. unfold plot_sds.
  assert (N : forallb fisnan omM = false).
  { destruct (forallb fisnan omM) eqn:F; [| reflexivity]. rewrite forallb_forall in F. specialize (F o Io).
    destruct o; try discriminate. congruence. }
  rewrite N. cbv zeta.
  assert (E : forall c l, exists d, (if Nat.eqb (length freq) (length omM)
            then Ok (Some {| d_points := combine freq omM; d_model := c; d_level := l |}) else Err ValueError) = Ok (Some d) /\
            length (d_points d) = length freq /\
            (forall i f o, nth_error freq i = Some f -> nth_error omM i = Some o -> nth_error (d_points d) i = Some (f, o))).
  { intros c l. rewrite Hl, Nat.eqb_refl. eexists. split; [reflexivity |]. cbn [d_points]. split.
    - rewrite combine_length. lia.
    - intros. apply nth_error_combine; assumption. }
  destruct method as [m |]; [| apply E].
  destruct (String.eqb_spec m "mean") as [-> | NM]; [congruence | apply E].
Qed.

(** the source model of the plot *)
Lemma sds_model : forall freq omM result method smo colored d f,
  fit_method method -> plot_sds freq omM result method (Some smo) colored = Ok (Some d) ->
  (d_model d <> None <-> (exists M0, first_given (p_M0 smo) (p_M0 result) 0 M0 /\ M0 <> 0) /\
                         (exists fc, first_given (p_fc smo) (p_fc result) 0 fc /\ fc <> 0)) /\
  (forall model, d_model d = Some model ->
    exists M0 fc n gamma,
      first_given (p_M0 smo) (p_M0 result) 0 M0 /\ first_given (p_fc smo) (p_fc result) 0 fc /\
      first_given (p_n smo) (p_n result) 2 n /\ first_given (p_gamma smo) (p_gamma result) 1 gamma /\
      model f = M0 * Rpower (1 + Rpower (f / fc) (n * gamma)) (- (1) / gamma) /\ d_level d = Some M0).
Proof.
  intros freq omM result method smo colored d f Hm H. unfold plot_sds in H.
  destruct (forallb fisnan omM); [discriminate |]. cbv zeta in H.
  assert (E1 : match method with Some m' => String.eqb m' "mean" | None => false end = false) by (destruct Hm; subst; reflexivity).
  assert (E2 : (match method with Some m' => String.eqb m' "fit" | None => false end || match method with Some m' => String.eqb m' "robust_fit" | None => false end)%bool = true)
    by (destruct Hm; subst; reflexivity).
  rewrite E1, E2 in H. clear E1 E2. destruct (Nat.eqb _ _); [| discriminate].
  match type of H with Ok (Some ?x) = _ => assert (Hd : d = x) by congruence end. subst d. clear H. cbn [d_model d_level].
  assert (FG : forall a b r, first_given a b 0 r -> r <> 0 -> positive (either a b) = Some r).
  { intros a b r [[x [-> [N ->]]] | [[-> | ->] [[x [-> ->]] | [-> ->]]]] Hr; unfold either, positive, either;
      repeat (destruct (Req_EM_T _ _); try congruence); try lra. }
  assert (GF : forall a b r, positive (either a b) = Some r -> first_given a b 0 r /\ r <> 0).
  { intros a b r P. assert (r <> 0 /\ either a b = Some r) as [N E].
    { unfold positive in P. unfold either at 1 in P. destruct (either a b) as [x |]; [| discriminate].
      destruct (Req_EM_T x 0); [discriminate |]. split; congruence. }
    split; [| assumption]. apply either_first. rewrite E. reflexivity. }
  unfold merge_pars; cbn [p_M0 p_fc p_n p_gamma]. split.
  - split.
    + intros D. destruct (positive (either (p_M0 smo) (p_M0 result))) as [M0 |] eqn:EM; [| congruence].
      destruct (positive (either (p_fc smo) (p_fc result))) as [fc |] eqn:EF; [| congruence].
      split; [exists M0 | exists fc]; apply GF; assumption.
    + intros [[M0 [A B]] [fc [C D]]]. rewrite (FG _ _ _ A B), (FG _ _ _ C D). discriminate.
  - intros model D. destruct (positive (either (p_M0 smo) (p_M0 result))) as [M0 |] eqn:EM; [| congruence].
    destruct (positive (either (p_fc smo) (p_fc result))) as [fc |] eqn:EF; [| congruence].
    assert (model = fun f => source_model f M0 fc (match either (p_n smo) (p_n result) with Some n => n | None => 2 end)
                               (match either (p_gamma smo) (p_gamma result) with Some g => g | None => 1 end)) by congruence.
    subst model. do 4 eexists. split; [apply GF; eassumption |]. split; [apply GF; eassumption |].
    split; [apply either_first; reflexivity |]. split; [apply either_first; reflexivity |]. split; reflexivity.
Qed.

(** the curve lies below the level *)
Lemma sds_below : forall freq omM result method smo colored d model M0 f,
  fit_method method -> plot_sds freq omM result method (Some smo) colored = Ok (Some d) ->
  d_model d = Some model -> d_level d = Some M0 -> 0 < M0 ->
  (forall g, first_given (p_gamma smo) (p_gamma result) 1 g -> 0 < g) -> 0 < model f < M0.
Proof.
  intros freq omM result method smo colored d model M0 f Hm H D L P G.
  destruct (sds_model _ _ _ _ _ _ _ f Hm H) as [_ K]. destruct (K model D) as [M [fc [n [g [_ [_ [_ [F [E L2]]]]]]]]].
  specialize (G g F). assert (M = M0) by congruence. subst M. rewrite E.
  assert (X : 0 < Rpower (1 + Rpower (f / fc) (n * g)) (- (1) / g) < 1).
  { split; [apply exp_pos |]. rewrite <- exp_0 at 3. unfold Rpower at 1. apply exp_increasing.
    assert (0 < ln (1 + Rpower (f / fc) (n * g))).
    { rewrite <- ln_1 at 1. apply ln_increasing; [lra |]. assert (0 < Rpower (f / fc) (n * g)) by apply exp_pos. lra. }
    assert (0 < / g) by (apply Rinv_0_lt_compat; assumption). unfold Rdiv. nra. }
  nra.
Qed.

Lemma sds_mean_fails : forall freq omM result smo colored d,
  plot_sds freq omM result (Some "mean"%string) smo colored <> Ok (Some d).
Proof.
  intros. unfold plot_sds. destruct (forallb fisnan omM); [discriminate |]. destruct smo as [smo |]; [| discriminate].
  cbn. destruct (either (p_fc smo) (p_fc result)); [destruct colored |]; discriminate.
Qed.

(** ** Magnitudes *)

Lemma mags_points : forall fit events only pts line, plot_mags fit events only = Some (pts, line) ->
  (forall c w, In (c, w) pts <-> exists e, In e events /\ m_cat e = Some c /\ m_w e = Some w /\
                                   (forall l, only = Some l -> In (m_id e) l)) /\
  pts <> [] /\ (line <> None <-> (3 < length pts)%nat) /\
  (forall ab, line = Some ab -> ab = fit (map snd pts) (map fst pts)).
Proof.
  intros fit events only pts line H. unfold plot_mags in H. cbv zeta in H.
  match type of H with match ?t with _ => _ end = _ => set (temp := t) in * end.
  assert (E : pts = temp /\ temp <> [] /\ line = if Nat.ltb 3 (length temp) then Some (fit (map snd temp) (map fst temp)) else None).
  { destruct temp; [discriminate |]. split; [congruence |]. split; [discriminate | congruence]. }
  destruct E as [-> [NE ->]]. split; [| split; [assumption |]].
  - intros c w. unfold temp. rewrite in_flat_map. split.
    + intros [e [I J]]. exists e. split; [assumption |]. destruct (m_cat e) as [c' |]; [| contradiction].
      destruct (m_w e) as [w' |]; [| contradiction].
      destruct only as [l |].
      * destruct (inb String.eqb (m_id e) l) eqn:B; [| contradiction]. destruct J as [J | []].
        assert (c' = c) by congruence. assert (w' = w) by congruence. subst. split; [reflexivity |]. split; [reflexivity |].
        intros l' El. assert (l' = l) by congruence. subst. apply (inb_In String.eqb string_eqb_spec). assumption.
      * destruct J as [J | []]. assert (c' = c) by congruence. assert (w' = w) by congruence. subst. repeat split. discriminate.
    + intros [e [I [C [W S]]]]. exists e. split; [assumption |]. rewrite C, W.
      destruct only as [l |].
      * specialize (S l eq_refl). apply (inb_In String.eqb string_eqb_spec) in S. rewrite S. left; reflexivity.
      * left; reflexivity.
  - destruct (Nat.ltb_spec 3 (length temp)); split.
    + split; intros; [assumption | discriminate].
    + intros ab A. congruence.
    + split; intros; [congruence | lia].
    + intros ab A. discriminate.
Qed.

Lemma limits_half_step : forall freq lim f0 f1 l e1 e0 m, freq = f0 :: f1 :: l -> freq = m ++ [e1; e0] ->
  freqlim freq = Some lim ->
  ln (fst lim) = ln f0 - (ln f1 - ln f0) / 2 /\ ln (snd lim) = ln e0 + (ln e0 - ln e1) / 2.
Proof.
  intros freq lim f0 f1 l e1 e0 m H1 H2 H. rewrite H1 in H.
  destruct (freqlim_some _ _ _ _ H) as [x0 [x1 [k [E [A B]]]]]. rewrite <- H1, H2, rev_app_distr in E. cbn in E.
  assert (x0 = e0) by congruence. assert (x1 = e1) by congruence. subst x0 x1. rewrite A, B, !limit_ln. split; lra.
Qed.

(** ** One value for all frequencies *)
Lemma calc0_good : forall q x fs v,
  (q = "Qsc" \/ q = "Qi")%string -> x <> 0 ->
  exists r, calc_dependent q (N0 (FNum x)) (AArray fs) (AScalar v) = Ok (Some (N1 r)) /\ length r = length fs /\
    forall j f, nth_error fs j = Some f -> f <> 0 -> exists y, nth_error r j = Some (FNum y) /\ derived q x f v y.
Proof.
  intros q x fs v Q X.
  assert (I : In q quantities) by (destruct Q as [-> | ->]; cbn; tauto).
  exists (map (fun f => value_of q (FNum x) f v) fs). split; [|split].
  - destruct Q as [-> | ->]; unfold calc_dependent; cbn -[PI IZR fdiv fmul map]; rewrite map_map; reflexivity.
  - apply map_length.
  - intros j f Ef Hf. destruct (value_derived q x f v I X Hf) as [y [Y D]]. exists y. split; [|assumption].
    rewrite nth_error_map, Ef. cbn [option_map]. now rewrite Y.
Qed.

Lemma calc0_one : forall q x v freq, (q = "lsc" \/ q = "li")%string -> x <> 0 ->
  exists y, calc_dependent q (N0 (FNum x)) freq (AScalar v) = Ok (Some (N0 (FNum y))) /\ derived q x 1 v y.
Proof.
  intros q x v freq Q X.
  assert (I : In q quantities) by (destruct Q as [-> | ->]; cbn; tauto).
  destruct (value_derived q x 1 v I X ltac:(lra)) as [y [Y D]]. exists y. split; [|assumption].
  destruct Q as [-> | ->]; unfold calc_dependent; cbn -[PI IZR fdiv fmul]; rewrite <- Y; reflexivity.
Qed.
