(** Lemmas for C134: the Green's functions with another unit of length. *)
From Coq Require Import String List Bool Reals Lra Lia ZArith Arith.
From Verif Require Import Base Pyf PyfOps StatModel SmoothModel RtModel RtSpec FbModel LsqfbModel GreenModel UnitSpec.
Import ListNotations.
Open Scope string_scope.
Open Scope list_scope.
Open Scope R_scope.

Section U.
  Variable k : R.
  Hypothesis K : 0 < k.

  Let KI : k * / k = 1.
  Proof. apply Rinv_r. lra. Qed.

  Lemma sqrt_unit c t r : sqrt ((k * c) ^ 2 * t ^ 2 - (k * r) ^ 2) = k * sqrt (c ^ 2 * t ^ 2 - r ^ 2).
  Proof.
    replace ((k * c) ^ 2 * t ^ 2 - (k * r) ^ 2) with (k ^ 2 * (c ^ 2 * t ^ 2 - r ^ 2)) by ring.
    rewrite sqrt_mult_alt by (apply pow2_ge_0). now rewrite sqrt_pow2 by lra.
  Qed.

  Lemma length_unit g : 1 / (g / k) = k * (1 / g).
  Proof. unfold Rdiv. rewrite Rinv_mult, Rinv_inv. ring. Qed.

  Ltac units := unfold Rdiv; cbn [pow]; rewrite ?Rmult_1_r; repeat rewrite Rinv_mult; repeat rewrite Rinv_inv; ring [KI].

  Lemma coda1 r t c g : rt1d_coda (k * r) t (k * c) (g / k) = rt1d_coda r t c g / k.
  Proof.
    unfold rt1d_coda. rewrite sqrt_unit, length_unit. set (a := sqrt _). set (l := 1 / g).
    replace (k * a / 2 / (k * l)) with (a / 2 / l) by units.
    replace (- (k * c) * t / 2 / (k * l)) with (- c * t / 2 / l) by units.
    set (y := iv1 _). replace (k * c * t * y / (k * a)) with (c * t * y / a) by units. set (z := exp _). units.
  Qed.

  Lemma coda2 r t c g : rt2d_coda (k * r) t (k * c) (g / k) = rt2d_coda r t c g / k ^ 2.
  Proof.
    unfold rt2d_coda. rewrite sqrt_unit, length_unit. set (a := sqrt _). set (l := 1 / g).
    replace ((k * a - k * c * t) / (k * l)) with ((a - c * t) / l) by units.
    replace ((k * r) ^ 2 / (k * c) ^ 2 / t ^ 2) with (r ^ 2 / c ^ 2 / t ^ 2) by units.
    set (z := exp _). set (y := Rpower _ _). units.
  Qed.

  Lemma coda3 r t c g : rt3d_coda (k * r) t (k * c) (g / k) = rt3d_coda r t c g / k ^ 3.
  Proof.
    unfold rt3d_coda. replace (k * r * (g / k)) with (r * g) by units.
    replace (t * (k * c) * (g / k)) with (t * c * g) by units. set (z := rt3d_coda_reduced _ _). units.
  Qed.

  Lemma front_unit r c : k * r / (k * c) = r / c.
  Proof. units. Qed.

  Lemma direct1 t c g : rt1d_direct t (k * c) (g / k) = rt1d_direct t c g.
  Proof. unfold rt1d_direct. rewrite length_unit. do 2 f_equal. set (l := 1 / g). units. Qed.
  Lemma direct2 t c g : rt2d_direct t (k * c) (g / k) = rt2d_direct t c g / k.
  Proof.
    unfold rt2d_direct. rewrite length_unit. set (l := 1 / g).
    replace (- (k * c) * t / (k * l)) with (- c * t / l) by units. set (z := exp _). units.
  Qed.
  Lemma direct3 t c g : rt3d_direct t (k * c) (g / k) = rt3d_direct t c g / k ^ 2.
  Proof.
    unfold rt3d_direct. replace (- (k * c) * t * (g / k)) with (- c * t * g) by units. set (z := exp _). units.
  Qed.

  Lemma select_unit ty : In ty ["rt3d"; "rt2d"; "rt1d"] -> exists Gc Gd, select ty = Some (Gc, Gd) /\
    (forall r t c g, Gc (k * r) t (k * c) (g / k) = Gc r t c g / k ^ dimension ty) /\
    (forall t c g e, Gd t (k * c) (g / k) / e / (k * c) = Gd t c g / e / c / k ^ dimension ty).
  Proof.
    intros T. cbn in T. destruct T as [<-|[<-|[<-|[]]]]; do 2 eexists; (split; [reflexivity|]); split; intros.
    - rewrite coda3. reflexivity.
    - rewrite direct3. change (dimension "rt3d") with 3%nat. units.
    - rewrite coda2. reflexivity.
    - rewrite direct2. change (dimension "rt2d") with 2%nat. units.
    - rewrite coda1. change (dimension "rt1d") with 1%nat. cbn [pow]. now rewrite Rmult_1_r.
    - rewrite direct1. change (dimension "rt1d") with 1%nat. units.
  Qed.

  Lemma count_unit r c ts : count_nonzero (fun t => ltb0 (k * c * t - k * r)) ts = count_nonzero (fun t => ltb0 (c * t - r)) ts.
  Proof.
    unfold count_nonzero. f_equal. apply filter_ext. intros t. unfold ltb0.
    replace (k * c * t - k * r) with (k * (c * t - r)) by ring. set (x := c * t - r).
    destruct (Rlt_dec (k * x) 0) as [L|L], (Rlt_dec x 0) as [M|M]; try reflexivity; exfalso.
    - apply M. apply (Rmult_lt_reg_l k); lra.
    - apply L. rewrite <- (Rmult_0_r k). now apply Rmult_lt_compat_l.
  Qed.

  Lemma set_nth_map f l : forall i v, set_nth (map f l) i (f v) = map f (set_nth l i v).
  Proof. induction l as [|x l IH]; intros [|i] v; cbn; [reflexivity..|]. now rewrite IH. Qed.

  Definition over (m : R) (l : res (list R)) : res (list R) := do l <- l; Ok (map (fun x => x / m) l).

  Lemma times_unit ty r ts c g b : In ty ["rt3d"; "rt2d"; "rt1d"] ->
    G_times ty (k * r) ts (k * c) (g / k) b = over (k ^ dimension ty) (G_times ty r ts c g b).
  Proof.
    intros T. destruct (select_unit ty T) as (Gc & Gd & S & HC & HD). unfold G_times, over.
    destruct ts as [|t0 [|t1 ts]]; [reflexivity..|]. rewrite S, count_unit, front_unit, HD.
    set (i := count_nonzero _ _). set (m := k ^ dimension ty) in *.
    assert (E : map (fun _ => 0) (firstn (i + 1) (t0 :: t1 :: ts)) ++ map (fun t => Gc (k * r) t (k * c) (g / k)) (skipn (i + 1) (t0 :: t1 :: ts))
      = map (fun x => x / m) (map (fun _ => 0) (firstn (i + 1) (t0 :: t1 :: ts)) ++ map (fun t => Gc r t c g) (skipn (i + 1) (t0 :: t1 :: ts)))).
    { rewrite map_app, !map_map. f_equal; apply map_ext; intros t; [unfold Rdiv; ring|apply HC]. }
    rewrite E. cbv zeta. destruct (_ && _ && _)%bool; cbn [bind]; [|reflexivity].
    f_equal. exact (set_nth_map (fun x => x / m) _ i _).
  Qed.

  Lemma rsum_over m l : rsum (map (fun x => x / m) l) = rsum l / m.
  Proof. induction l as [|x l IH]; [cbn; unfold Rdiv; ring|]. unfold rsum in *. cbn [map fold_right]. rewrite IH. unfold Rdiv. ring. Qed.

  Lemma smooth_over m y n window : smooth (map (fun x => x / m) y) n window None = over m (smooth y n window None).
  Proof.
    unfold smooth, over. destruct n as [n|]; [|reflexivity]. rewrite map_length. destruct (_ <? n)%Z eqn:LN; [reflexivity|].
    destruct (n <? 3)%Z; [reflexivity|]. destruct (negb _); [reflexivity|]. cbn [bind]. f_equal. cbn [pad].
    unfold convolve_valid. rewrite !map_length. unfold window_list. rewrite map_length, seq_length.
    assert (LE : (Z.to_nat n <=? List.length y)%nat = true) by (apply Nat.leb_le; apply Z.ltb_ge in LN; lia).
    rewrite LE. unfold convolve_short. rewrite !map_length, seq_length, !map_map. apply map_ext. intros j.
    set (a := map _ _). rewrite <- rsum_over, map_map. f_equal. apply map_ext. intros i.
    replace 0 with (0 / m) at 2 by (unfold Rdiv; ring).
    rewrite (map_nth (fun x => x / m)). unfold Rdiv. ring.
  Qed.

  Lemma Gsmooth_unit ty r t c g sm window : In ty ["rt3d"; "rt2d"; "rt1d"] ->
    Gsmooth (G_plugin ty) (k * r) t (k * c) (g / k) sm window = over (k ^ dimension ty) (Gsmooth (G_plugin ty) r t c g sm window).
  Proof.
    intros T. unfold Gsmooth, smooth_func_array, G_plugin. destruct sm as [wl|]; [|now apply times_unit].
    destruct t as [|t0 [|t1 t]]; [reflexivity..|]. destruct (Rlt_dec _ _); [reflexivity|]. destruct (Req_EM_T _ _); [reflexivity|].
    cbv zeta. rewrite times_unit by assumption. set (G := G_times _ _ _ _ _ _). destruct G as [gs|]; [|reflexivity].
    cbn [over bind]. apply smooth_over.
  Qed.

  Definition overs (m : R) (x : res (list pyf)) : res (list pyf) := do l <- x; Ok (map (per_unit m) l).

  Lemma coda_unit ty r t c g sm window : In ty ["rt3d"; "rt2d"; "rt1d"] ->
    coda_greens ty sm window (k * c) (k * r) t (per_unit k g) = overs (k ^ dimension ty) (coda_greens ty sm window c r t g).
  Proof.
    intros T. destruct g; cbn [per_unit coda_greens]; try (cbn [overs bind]; rewrite map_map; reflexivity).
    rewrite Gsmooth_unit by assumption. destruct (Gsmooth _ _ _ _ _ _ _) as [gs|]; [|reflexivity].
    cbn [over overs bind]. now rewrite !map_map.
  Qed.

  Lemma bulk_unit ty r w c g num : In ty ["rt3d"; "rt2d"; "rt1d"] ->
    bulk_greens ty num (k * c) (k * r) w (per_unit k g) = do x <- bulk_greens ty num c r w g; Ok (per_unit (k ^ dimension ty) x).
  Proof.
    intros T. destruct g; cbn [per_unit bulk_greens bind]; try reflexivity.
    unfold bulk_green, G_plugin. rewrite times_unit by assumption. destruct (G_times _ _ _ _ _ _) as [gs|]; [|reflexivity].
    cbn [over bind per_unit]. rewrite map_length, rsum_over. do 2 f_equal. unfold Rdiv. ring.
  Qed.
End U.
